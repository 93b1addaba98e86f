(** * Pow521: powers of small numbers modulo the field of P-521.  Written by /verif/tools/gen_primes.py. *)
From Coq Require Import ZArith List.
From Verif Require Import PowCert.
Import ListNotations.
Open Scope Z_scope.

(** The power is 0x1. *)
Definition pow_z521 : list pstep := [P1 0x0 0x4; P1 0x0 0x40; P1 0x0 0x4000; P1 0x0 0x40000000; P1 0x0 0x4000000000000000; P1 0x0 0x40000000000000000000000000000000; P1 0x0 0x4000000000000000000000000000000000000000000000000000000000000000; P1 0x0 0x40000000000000000000000000000000000000000000000000000000000000000000000000000000000000000000000000000000000000000000000000000000; P1 0x200000000000000000000000000000000000000000000000000000000000000000000000000000000000000000000000000000000000000000000000000000 0x200000000000000000000000000000000000000000000000000000000000000000000000000000000000000000000000000000000000000000000000000000; P1 0x8000000000000000000000000000000000000000000000000000000000000000000000000000000000000000000000000000000000000000000000000 0x8000000000000000000000000000000000000000000000000000000000000000000000000000000000000000000000000000000000000000000000000; P1 0x8000000000000000000000000000000000000000000000000000000000000000000000000000000000000000000000000000000000000000 0x8000000000000000000000000000000000000000000000000000000000000000000000000000000000000000000000000000000000000000; P1 0x8000000000000000000000000000000000000000000000000000000000000000000000000000000000000000000000 0x8000000000000000000000000000000000000000000000000000000000000000000000000000000000000000000000; P1 0x8000000000000000000000000000000000000000000000000000000000 0x8000000000000000000000000000000000000000000000000000000000; P1 0x0 0x100000000000000000000000000000000000000000000000000000000000000000000000000000000000000000000000000000000000000000000; P1 0x2000000000000000000000000000000000000000000000000000000000000000000000000000000000000000000000000000000 0x2000000000000000000000000000000000000000000000000000000000000000000000000000000000000000000000000000000; P1 0x800000000000000000000000000000000000000000000000000000000000000000000000000 0x800000000000000000000000000000000000000000000000000000000000000000000000000; P1 0x80000000000000000000 0x80000000000000000000; P1 0x0 0x10000000000000000000000000000000000000000; P1 0x0 0x400000000000000000000000000000000000000000000000000000000000000000000000000000000; P1 0x20000000000000000000000000000000 0x20000000000000000000000000000000; P1 0x0 0x1000000000000000000000000000000000000000000000000000000000000000; P1 0x0 0x4000000000000000000000000000000000000000000000000000000000000000000000000000000000000000000000000000000000000000000000000000000; P1 0x2000000000000000000000000000000000000000000000000000000000000000000000000000000000000000000000000000000000000000000000000000 0x2000000000000000000000000000000000000000000000000000000000000000000000000000000000000000000000000000000000000000000000000000; P1 0x800000000000000000000000000000000000000000000000000000000000000000000000000000000000000000000000000000000000000000000 0x800000000000000000000000000000000000000000000000000000000000000000000000000000000000000000000000000000000000000000000; P1 0x80000000000000000000000000000000000000000000000000000000000000000000000000000000000000000000000000000000 0x80000000000000000000000000000000000000000000000000000000000000000000000000000000000000000000000000000000; P1 0x800000000000000000000000000000000000000000000000000000000000000000000000000000 0x800000000000000000000000000000000000000000000000000000000000000000000000000000; P1 0x80000000000000000000000000 0x80000000000000000000000000; P1 0x0 0x10000000000000000000000000000000000000000000000000000; P1 0x0 0x400000000000000000000000000000000000000000000000000000000000000000000000000000000000000000000000000000000; P1 0x20000000000000000000000000000000000000000000000000000000000000000000000000000000 0x20000000000000000000000000000000000000000000000000000000000000000000000000000000; P1 0x80000000000000000000000000000 0x80000000000000000000000000000; P1 0x0 0x10000000000000000000000000000000000000000000000000000000000; P1 0x0 0x400000000000000000000000000000000000000000000000000000000000000000000000000000000000000000000000000000000000000000000; P1 0x20000000000000000000000000000000000000000000000000000000000000000000000000000000000000000000000000000000 0x20000000000000000000000000000000000000000000000000000000000000000000000000000000000000000000000000000000; P1 0x80000000000000000000000000000000000000000000000000000000000000000000000000000 0x80000000000000000000000000000000000000000000000000000000000000000000000000000; P1 0x800000000000000000000000 0x800000000000000000000000; P1 0x0 0x1000000000000000000000000000000000000000000000000; P1 0x0 0x4000000000000000000000000000000000000000000000000000000000000000000000000000000000000000000000000; P1 0x2000000000000000000000000000000000000000000000000000000000000000 0x2000000000000000000000000000000000000000000000000000000000000000; P1 0x0 0x10000000000000000000000000000000000000000000000000000000000000000000000000000000000000000000000000000000000000000000000000000000; P1 0x20000000000000000000000000000000000000000000000000000000000000000000000000000000000000000000000000000000000000000000000000000 0x20000000000000000000000000000000000000000000000000000000000000000000000000000000000000000000000000000000000000000000000000000; P1 0x80000000000000000000000000000000000000000000000000000000000000000000000000000000000000000000000000000000000000000000000 0x80000000000000000000000000000000000000000000000000000000000000000000000000000000000000000000000000000000000000000000000; P1 0x800000000000000000000000000000000000000000000000000000000000000000000000000000000000000000000000000000000000 0x800000000000000000000000000000000000000000000000000000000000000000000000000000000000000000000000000000000000; P1 0x80000000000000000000000000000000000000000000000000000000000000000000000000000000000000 0x80000000000000000000000000000000000000000000000000000000000000000000000000000000000000; P1 0x800000000000000000000000000000000000000000 0x800000000000000000000000000000000000000000; P1 0x0 0x1000000000000000000000000000000000000000000000000000000000000000000000000000000000000; P1 0x200000000000000000000000000000000000000 0x200000000000000000000000000000000000000; P1 0x0 0x100000000000000000000000000000000000000000000000000000000000000000000000000000; P1 0x2000000000000000000000000 0x2000000000000000000000000; P1 0x0 0x10000000000000000000000000000000000000000000000000; P1 0x0 0x400000000000000000000000000000000000000000000000000000000000000000000000000000000000000000000000000; P1 0x20000000000000000000000000000000000000000000000000000000000000000000 0x20000000000000000000000000000000000000000000000000000000000000000000; P1 0x80000 0x80000; P1 0x0 0x10000000000; P1 0x0 0x400000000000000000000; P1 0x0 0x400000000000000000000000000000000000000000; P1 0x0 0x400000000000000000000000000000000000000000000000000000000000000000000000000000000000; P1 0x20000000000000000000000000000000000000 0x20000000000000000000000000000000000000; P1 0x0 0x1000000000000000000000000000000000000000000000000000000000000000000000000000; P1 0x200000000000000000000 0x200000000000000000000; P1 0x0 0x100000000000000000000000000000000000000000; P1 0x0 0x40000000000000000000000000000000000000000000000000000000000000000000000000000000000; P1 0x200000000000000000000000000000000000 0x200000000000000000000000000000000000; P1 0x0 0x100000000000000000000000000000000000000000000000000000000000000000000000; P1 0x2000000000000 0x2000000000000; P1 0x0 0x10000000000000000000000000; P1 0x0 0x400000000000000000000000000000000000000000000000000; P1 0x0 0x400000000000000000000000000000000000000000000000000000000000000000000000000000000000000000000000000000; P1 0x20000000000000000000000000000000000000000000000000000000000000000000000000 0x20000000000000000000000000000000000000000000000000000000000000000000000000; P1 0x80000000000000000 0x80000000000000000; P1 0x0 0x10000000000000000000000000000000000; P1 0x0 0x400000000000000000000000000000000000000000000000000000000000000000000; P1 0x20000000 0x20000000; P1 0x0 0x1000000000000000; P1 0x0 0x4000000000000000000000000000000; P1 0x0 0x40000000000000000000000000000000000000000000000000000000000000; P1 0x0 0x4000000000000000000000000000000000000000000000000000000000000000000000000000000000000000000000000000000000000000000000000000; P1 0x2000000000000000000000000000000000000000000000000000000000000000000000000000000000000000000000000000000000000000000000 0x2000000000000000000000000000000000000000000000000000000000000000000000000000000000000000000000000000000000000000000000; P1 0x800000000000000000000000000000000000000000000000000000000000000000000000000000000000000000000000000000000 0x800000000000000000000000000000000000000000000000000000000000000000000000000000000000000000000000000000000; P1 0x80000000000000000000000000000000000000000000000000000000000000000000000000000000 0x80000000000000000000000000000000000000000000000000000000000000000000000000000000; P1 0x800000000000000000000000000000 0x800000000000000000000000000000; P1 0x0 0x1000000000000000000000000000000000000000000000000000000000000; P1 0x0 0x4000000000000000000000000000000000000000000000000000000000000000000000000000000000000000000000000000000000000000000000000; P1 0x2000000000000000000000000000000000000000000000000000000000000000000000000000000000000000000000000000000000000000 0x2000000000000000000000000000000000000000000000000000000000000000000000000000000000000000000000000000000000000000; P1 0x800000000000000000000000000000000000000000000000000000000000000000000000000000000000000000000 0x800000000000000000000000000000000000000000000000000000000000000000000000000000000000000000000; P1 0x80000000000000000000000000000000000000000000000000000000 0x80000000000000000000000000000000000000000000000000000000; P1 0x0 0x10000000000000000000000000000000000000000000000000000000000000000000000000000000000000000000000000000000000000000; P1 0x20000000000000000000000000000000000000000000000000000000000000000000000000000000000000000000000 0x20000000000000000000000000000000000000000000000000000000000000000000000000000000000000000000000; P1 0x80000000000000000000000000000000000000000000000000000000000 0x80000000000000000000000000000000000000000000000000000000000; P1 0x0 0x10000000000000000000000000000000000000000000000000000000000000000000000000000000000000000000000000000000000000000000000; P1 0x20000000000000000000000000000000000000000000000000000000000000000000000000000000000000000000000000000000000 0x20000000000000000000000000000000000000000000000000000000000000000000000000000000000000000000000000000000000; P1 0x80000000000000000000000000000000000000000000000000000000000000000000000000000000000 0x80000000000000000000000000000000000000000000000000000000000000000000000000000000000; P1 0x800000000000000000000000000000000000 0x800000000000000000000000000000000000; P1 0x0 0x1000000000000000000000000000000000000000000000000000000000000000000000000; P1 0x200000000000000 0x200000000000000; P1 0x0 0x100000000000000000000000000000; P1 0x0 0x40000000000000000000000000000000000000000000000000000000000; P1 0x0 0x4000000000000000000000000000000000000000000000000000000000000000000000000000000000000000000000000000000000000000000000; P1 0x2000000000000000000000000000000000000000000000000000000000000000000000000000000000000000000000000000000000 0x2000000000000000000000000000000000000000000000000000000000000000000000000000000000000000000000000000000000; P1 0x800000000000000000000000000000000000000000000000000000000000000000000000000000000 0x800000000000000000000000000000000000000000000000000000000000000000000000000000000; P1 0x80000000000000000000000000000000 0x80000000000000000000000000000000; P1 0x0 0x10000000000000000000000000000000000000000000000000000000000000000; P1 0x0 0x400000000000000000000000000000000000000000000000000000000000000000000000000000000000000000000000000000000000000000000000000000000; P1 0x20000000000000000000000000000000000000000000000000000000000000000000000000000000000000000000000000000000000000000000000000000000 0x20000000000000000000000000000000000000000000000000000000000000000000000000000000000000000000000000000000000000000000000000000000; P1 0x80000000000000000000000000000000000000000000000000000000000000000000000000000000000000000000000000000000000000000000000000000 0x80000000000000000000000000000000000000000000000000000000000000000000000000000000000000000000000000000000000000000000000000000; P1 0x800000000000000000000000000000000000000000000000000000000000000000000000000000000000000000000000000000000000000000000000 0x800000000000000000000000000000000000000000000000000000000000000000000000000000000000000000000000000000000000000000000000; P1 0x80000000000000000000000000000000000000000000000000000000000000000000000000000000000000000000000000000000000000 0x80000000000000000000000000000000000000000000000000000000000000000000000000000000000000000000000000000000000000; P1 0x800000000000000000000000000000000000000000000000000000000000000000000000000000000000000000 0x800000000000000000000000000000000000000000000000000000000000000000000000000000000000000000; P1 0x80000000000000000000000000000000000000000000000000 0x80000000000000000000000000000000000000000000000000; P1 0x0 0x10000000000000000000000000000000000000000000000000000000000000000000000000000000000000000000000000000; P1 0x20000000000000000000000000000000000000000000000000000000000000000000000 0x20000000000000000000000000000000000000000000000000000000000000000000000; P1 0x80000000000 0x80000000000; P1 0x0 0x10000000000000000000000; P1 0x0 0x400000000000000000000000000000000000000000000; P1 0x0 0x400000000000000000000000000000000000000000000000000000000000000000000000000000000000000000; P1 0x20000000000000000000000000000000000000000000000000 0x20000000000000000000000000000000000000000000000000; P1 0x0 0x1000000000000000000000000000000000000000000000000000000000000000000000000000000000000000000000000000; P1 0x200000000000000000000000000000000000000000000000000000000000000000000 0x200000000000000000000000000000000000000000000000000000000000000000000; P1 0x8000000 0x8000000; P1 0x0 0x100000000000000; P1 0x0 0x40000000000000000000000000000; P1 0x0 0x4000000000000000000000000000000000000000000000000000000000; P1 0x0 0x40000000000000000000000000000000000000000000000000000000000000000000000000000000000000000000000000000000000000000000; P1 0x200000000000000000000000000000000000000000000000000000000000000000000000000000000000000000000000000000 0x200000000000000000000000000000000000000000000000000000000000000000000000000000000000000000000000000000; P1 0x8000000000000000000000000000000000000000000000000000000000000000000000000 0x8000000000000000000000000000000000000000000000000000000000000000000000000; P1 0x8000000000000000 0x8000000000000000; P1 0x0 0x100000000000000000000000000000000; P1 0x0 0x40000000000000000000000000000000000000000000000000000000000000000; P1 0x0 0x4000000000000000000000000000000000000000000000000000000000000000000000000000000000000000000000000000000000000000000000000000000000; P1 0x2000000000000000000000000000000000000000000000000000000000000000000000000000000000000000000000000000000000000000000000000000000000 0x2000000000000000000000000000000000000000000000000000000000000000000000000000000000000000000000000000000000000000000000000000000000; P1 0x800000000000000000000000000000000000000000000000000000000000000000000000000000000000000000000000000000000000000000000000000000000 0x800000000000000000000000000000000000000000000000000000000000000000000000000000000000000000000000000000000000000000000000000000000; P1 0x80000000000000000000000000000000000000000000000000000000000000000000000000000000000000000000000000000000000000000000000000000000 0x80000000000000000000000000000000000000000000000000000000000000000000000000000000000000000000000000000000000000000000000000000000; P1 0x800000000000000000000000000000000000000000000000000000000000000000000000000000000000000000000000000000000000000000000000000000 0x800000000000000000000000000000000000000000000000000000000000000000000000000000000000000000000000000000000000000000000000000000; P1 0x80000000000000000000000000000000000000000000000000000000000000000000000000000000000000000000000000000000000000000000000000 0x80000000000000000000000000000000000000000000000000000000000000000000000000000000000000000000000000000000000000000000000000; P1 0x800000000000000000000000000000000000000000000000000000000000000000000000000000000000000000000000000000000000000000 0x800000000000000000000000000000000000000000000000000000000000000000000000000000000000000000000000000000000000000000; P1 0x80000000000000000000000000000000000000000000000000000000000000000000000000000000000000000000000000 0x80000000000000000000000000000000000000000000000000000000000000000000000000000000000000000000000000; P1 0x800000000000000000000000000000000000000000000000000000000000000000 0x800000000000000000000000000000000000000000000000000000000000000000; P1 0x80 0x80; P1 0x0 0x10000; P1 0x0 0x400000000; P1 0x0 0x400000000000000000; P1 0x0 0x400000000000000000000000000000000000; P1 0x0 0x400000000000000000000000000000000000000000000000000000000000000000000000; P1 0x20000000000000 0x20000000000000; P1 0x0 0x1000000000000000000000000000; P1 0x0 0x4000000000000000000000000000000000000000000000000000000; P1 0x0 0x40000000000000000000000000000000000000000000000000000000000000000000000000000000000000000000000000000000000000; P1 0x200000000000000000000000000000000000000000000000000000000000000000000000000000000000000000 0x200000000000000000000000000000000000000000000000000000000000000000000000000000000000000000; P1 0x8000000000000000000000000000000000000000000000000 0x8000000000000000000000000000000000000000000000000; P1 0x0 0x100000000000000000000000000000000000000000000000000000000000000000000000000000000000000000000000000; P1 0x2000000000000000000000000000000000000000000000000000000000000000000 0x2000000000000000000000000000000000000000000000000000000000000000000; P1 0x800 0x800; P1 0x0 0x1000000; P1 0x0 0x4000000000000; P1 0x0 0x40000000000000000000000000; P1 0x0 0x4000000000000000000000000000000000000000000000000000; P1 0x0 0x40000000000000000000000000000000000000000000000000000000000000000000000000000000000000000000000000000000; P1 0x200000000000000000000000000000000000000000000000000000000000000000000000000000 0x200000000000000000000000000000000000000000000000000000000000000000000000000000; P1 0x8000000000000000000000000 0x8000000000000000000000000; P1 0x0 0x100000000000000000000000000000000000000000000000000; P1 0x0 0x40000000000000000000000000000000000000000000000000000000000000000000000000000000000000000000000000000; P1 0x200000000000000000000000000000000000000000000000000000000000000000000000 0x200000000000000000000000000000000000000000000000000000000000000000000000; P1 0x8000000000000 0x8000000000000; P1 0x0 0x100000000000000000000000000; P1 0x0 0x40000000000000000000000000000000000000000000000000000; P1 0x0 0x4000000000000000000000000000000000000000000000000000000000000000000000000000000000000000000000000000000000; P1 0x2000000000000000000000000000000000000000000000000000000000000000000000000000000000 0x2000000000000000000000000000000000000000000000000000000000000000000000000000000000; P1 0x800000000000000000000000000000000 0x800000000000000000000000000000000; P1 0x0 0x1000000000000000000000000000000000000000000000000000000000000000000; P1 0x200 0x200; P1 0x0 0x100000; P1 0x0 0x40000000000; P1 0x0 0x4000000000000000000000; P1 0x0 0x40000000000000000000000000000000000000000000; P1 0x0 0x4000000000000000000000000000000000000000000000000000000000000000000000000000000000000000; P1 0x2000000000000000000000000000000000000000000000 0x2000000000000000000000000000000000000000000000; P1 0x0 0x10000000000000000000000000000000000000000000000000000000000000000000000000000000000000000000; P1 0x20000000000000000000000000000000000000000000000000000 0x20000000000000000000000000000000000000000000000000000; P1 0x0 0x1000000000000000000000000000000000000000000000000000000000000000000000000000000000000000000000000000000000; P1 0x200000000000000000000000000000000000000000000000000000000000000000000000000000000 0x200000000000000000000000000000000000000000000000000000000000000000000000000000000; P1 0x8000000000000000000000000000000 0x8000000000000000000000000000000; P1 0x0 0x100000000000000000000000000000000000000000000000000000000000000; P1 0x0 0x40000000000000000000000000000000000000000000000000000000000000000000000000000000000000000000000000000000000000000000000000000; P1 0x200000000000000000000000000000000000000000000000000000000000000000000000000000000000000000000000000000000000000000000000 0x200000000000000000000000000000000000000000000000000000000000000000000000000000000000000000000000000000000000000000000000; P1 0x8000000000000000000000000000000000000000000000000000000000000000000000000000000000000000000000000000000000000 0x8000000000000000000000000000000000000000000000000000000000000000000000000000000000000000000000000000000000000; P1 0x8000000000000000000000000000000000000000000000000000000000000000000000000000000000000000 0x8000000000000000000000000000000000000000000000000000000000000000000000000000000000000000; P1 0x8000000000000000000000000000000000000000000000 0x8000000000000000000000000000000000000000000000; P1 0x0 0x100000000000000000000000000000000000000000000000000000000000000000000000000000000000000000000; P1 0x2000000000000000000000000000000000000000000000000000000 0x2000000000000000000000000000000000000000000000000000000; P1 0x0 0x10000000000000000000000000000000000000000000000000000000000000000000000000000000000000000000000000000000000000; P1 0x20000000000000000000000000000000000000000000000000000000000000000000000000000000000000000 0x20000000000000000000000000000000000000000000000000000000000000000000000000000000000000000; P1 0x80000000000000000000000000000000000000000000000 0x80000000000000000000000000000000000000000000000; P1 0x0 0x10000000000000000000000000000000000000000000000000000000000000000000000000000000000000000000000; P1 0x20000000000000000000000000000000000000000000000000000000000 0x20000000000000000000000000000000000000000000000000000000000; P1 0x0 0x1000000000000000000000000000000000000000000000000000000000000000000000000000000000000000000000000000000000000000000000; P1 0x200000000000000000000000000000000000000000000000000000000000000000000000000000000000000000000000000000000 0x200000000000000000000000000000000000000000000000000000000000000000000000000000000000000000000000000000000; P1 0x8000000000000000000000000000000000000000000000000000000000000000000000000000000 0x8000000000000000000000000000000000000000000000000000000000000000000000000000000; P1 0x8000000000000000000000000000 0x8000000000000000000000000000; P1 0x0 0x100000000000000000000000000000000000000000000000000000000; P1 0x0 0x40000000000000000000000000000000000000000000000000000000000000000000000000000000000000000000000000000000000000000; P1 0x200000000000000000000000000000000000000000000000000000000000000000000000000000000000000000000000 0x200000000000000000000000000000000000000000000000000000000000000000000000000000000000000000000000; P1 0x8000000000000000000000000000000000000000000000000000000000000 0x8000000000000000000000000000000000000000000000000000000000000; P1 0x0 0x100000000000000000000000000000000000000000000000000000000000000000000000000000000000000000000000000000000000000000000000000; P1 0x2000000000000000000000000000000000000000000000000000000000000000000000000000000000000000000000000000000000000000000 0x2000000000000000000000000000000000000000000000000000000000000000000000000000000000000000000000000000000000000000000; P1 0x800000000000000000000000000000000000000000000000000000000000000000000000000000000000000000000000000 0x800000000000000000000000000000000000000000000000000000000000000000000000000000000000000000000000000; P1 0x80000000000000000000000000000000000000000000000000000000000000000000 0x80000000000000000000000000000000000000000000000000000000000000000000; P1 0x800000 0x800000; P1 0x0 0x1000000000000; P1 0x0 0x4000000000000000000000000; P1 0x0 0x40000000000000000000000000000000000000000000000000; P1 0x0 0x4000000000000000000000000000000000000000000000000000000000000000000000000000000000000000000000000000; P1 0x2000000000000000000000000000000000000000000000000000000000000000000000 0x2000000000000000000000000000000000000000000000000000000000000000000000; P1 0x800000000 0x800000000; P1 0x0 0x1000000000000000000; P1 0x0 0x4000000000000000000000000000000000000; P1 0x0 0x40000000000000000000000000000000000000000000000000000000000000000000000000; P1 0x200000000000000000 0x200000000000000000; P1 0x0 0x100000000000000000000000000000000000; P1 0x0 0x40000000000000000000000000000000000000000000000000000000000000000000000; P1 0x200000000000 0x200000000000; P1 0x0 0x100000000000000000000000; P1 0x0 0x40000000000000000000000000000000000000000000000; P1 0x0 0x4000000000000000000000000000000000000000000000000000000000000000000000000000000000000000000000; P1 0x2000000000000000000000000000000000000000000000000000000000 0x2000000000000000000000000000000000000000000000000000000000; P1 0x0 0x10000000000000000000000000000000000000000000000000000000000000000000000000000000000000000000000000000000000000000000; P1 0x20000000000000000000000000000000000000000000000000000000000000000000000000000000000000000000000000000 0x20000000000000000000000000000000000000000000000000000000000000000000000000000000000000000000000000000; P1 0x80000000000000000000000000000000000000000000000000000000000000000000000 0x80000000000000000000000000000000000000000000000000000000000000000000000; P1 0x800000000000 0x800000000000; P1 0x0 0x1000000000000000000000000; P1 0x0 0x4000000000000000000000000000000000000000000000000; P1 0x0 0x40000000000000000000000000000000000000000000000000000000000000000000000000000000000000000000000000; P1 0x200000000000000000000000000000000000000000000000000000000000000000 0x200000000000000000000000000000000000000000000000000000000000000000; P1 0x8 0x8; P1 0x0 0x100; P1 0x0 0x40000; P1 0x0 0x4000000000; P1 0x0 0x40000000000000000000; P1 0x0 0x4000000000000000000000000000000000000000; P1 0x0 0x40000000000000000000000000000000000000000000000000000000000000000000000000000000; P1 0x200000000000000000000000000000 0x200000000000000000000000000000; P1 0x0 0x100000000000000000000000000000000000000000000000000000000000; P1 0x0 0x40000000000000000000000000000000000000000000000000000000000000000000000000000000000000000000000000000000000000000000000; P1 0x200000000000000000000000000000000000000000000000000000000000000000000000000000000000000000000000000000000000 0x200000000000000000000000000000000000000000000000000000000000000000000000000000000000000000000000000000000000; P1 0x8000000000000000000000000000000000000000000000000000000000000000000000000000000000000 0x8000000000000000000000000000000000000000000000000000000000000000000000000000000000000; P1 0x8000000000000000000000000000000000000000 0x8000000000000000000000000000000000000000; P1 0x0 0x100000000000000000000000000000000000000000000000000000000000000000000000000000000; P1 0x2000000000000000000000000000000 0x2000000000000000000000000000000; P1 0x0 0x10000000000000000000000000000000000000000000000000000000000000; P1 0x0 0x400000000000000000000000000000000000000000000000000000000000000000000000000000000000000000000000000000000000000000000000000; P1 0x20000000000000000000000000000000000000000000000000000000000000000000000000000000000000000000000000000000000000000000 0x20000000000000000000000000000000000000000000000000000000000000000000000000000000000000000000000000000000000000000000; P1 0x80000000000000000000000000000000000000000000000000000000000000000000000000000000000000000000000000000 0x80000000000000000000000000000000000000000000000000000000000000000000000000000000000000000000000000000; P1 0x800000000000000000000000000000000000000000000000000000000000000000000000 0x800000000000000000000000000000000000000000000000000000000000000000000000; P1 0x80000000000000 0x80000000000000; P1 0x0 0x10000000000000000000000000000; P1 0x0 0x400000000000000000000000000000000000000000000000000000000; P1 0x0 0x400000000000000000000000000000000000000000000000000000000000000000000000000000000000000000000000000000000000000000; P1 0x20000000000000000000000000000000000000000000000000000000000000000000000000000000000000000000000000 0x20000000000000000000000000000000000000000000000000000000000000000000000000000000000000000000000000; P1 0x80000000000000000000000000000000000000000000000000000000000000000 0x80000000000000000000000000000000000000000000000000000000000000000; P1 0x0 0x10000000000000000000000000000000000000000000000000000000000000000000000000000000000000000000000000000000000000000000000000000000000; P1 0x20000000000000000000000000000000000000000000000000000000000000000000000000000000000000000000000000000000000000000000000000000000001 0x1; P1 0x0 0x4; P1 0x0 0x40; P1 0x0 0x4000; P1 0x0 0x40000000; P1 0x0 0x4000000000000000; P1 0x0 0x40000000000000000000000000000000; P1 0x0 0x4000000000000000000000000000000000000000000000000000000000000000; P1 0x0 0x40000000000000000000000000000000000000000000000000000000000000000000000000000000000000000000000000000000000000000000000000000000; P1 0x200000000000000000000000000000000000000000000000000000000000000000000000000000000000000000000000000000000000000000000000000000 0x200000000000000000000000000000000000000000000000000000000000000000000000000000000000000000000000000000000000000000000000000000; P1 0x8000000000000000000000000000000000000000000000000000000000000000000000000000000000000000000000000000000000000000000000000 0x8000000000000000000000000000000000000000000000000000000000000000000000000000000000000000000000000000000000000000000000000; P1 0x8000000000000000000000000000000000000000000000000000000000000000000000000000000000000000000000000000000000000000 0x8000000000000000000000000000000000000000000000000000000000000000000000000000000000000000000000000000000000000000; P1 0x8000000000000000000000000000000000000000000000000000000000000000000000000000000000000000000000 0x8000000000000000000000000000000000000000000000000000000000000000000000000000000000000000000000; P1 0x8000000000000000000000000000000000000000000000000000000000 0x8000000000000000000000000000000000000000000000000000000000; P1 0x0 0x100000000000000000000000000000000000000000000000000000000000000000000000000000000000000000000000000000000000000000000; P1 0x2000000000000000000000000000000000000000000000000000000000000000000000000000000000000000000000000000000 0x2000000000000000000000000000000000000000000000000000000000000000000000000000000000000000000000000000000; P1 0x800000000000000000000000000000000000000000000000000000000000000000000000000 0x800000000000000000000000000000000000000000000000000000000000000000000000000; P1 0x80000000000000000000 0x80000000000000000000; P1 0x0 0x10000000000000000000000000000000000000000; P1 0x0 0x400000000000000000000000000000000000000000000000000000000000000000000000000000000; P1 0x20000000000000000000000000000000 0x20000000000000000000000000000000; P1 0x0 0x1000000000000000000000000000000000000000000000000000000000000000; P1 0x0 0x4000000000000000000000000000000000000000000000000000000000000000000000000000000000000000000000000000000000000000000000000000000; P1 0x2000000000000000000000000000000000000000000000000000000000000000000000000000000000000000000000000000000000000000000000000000 0x2000000000000000000000000000000000000000000000000000000000000000000000000000000000000000000000000000000000000000000000000000; P1 0x800000000000000000000000000000000000000000000000000000000000000000000000000000000000000000000000000000000000000000000 0x800000000000000000000000000000000000000000000000000000000000000000000000000000000000000000000000000000000000000000000; P1 0x80000000000000000000000000000000000000000000000000000000000000000000000000000000000000000000000000000000 0x80000000000000000000000000000000000000000000000000000000000000000000000000000000000000000000000000000000; P1 0x800000000000000000000000000000000000000000000000000000000000000000000000000000 0x800000000000000000000000000000000000000000000000000000000000000000000000000000; P1 0x80000000000000000000000000 0x80000000000000000000000000; P1 0x0 0x10000000000000000000000000000000000000000000000000000; P1 0x0 0x400000000000000000000000000000000000000000000000000000000000000000000000000000000000000000000000000000000; P1 0x20000000000000000000000000000000000000000000000000000000000000000000000000000000 0x20000000000000000000000000000000000000000000000000000000000000000000000000000000; P1 0x80000000000000000000000000000 0x80000000000000000000000000000; P1 0x0 0x10000000000000000000000000000000000000000000000000000000000; P1 0x0 0x400000000000000000000000000000000000000000000000000000000000000000000000000000000000000000000000000000000000000000000; P1 0x20000000000000000000000000000000000000000000000000000000000000000000000000000000000000000000000000000000 0x20000000000000000000000000000000000000000000000000000000000000000000000000000000000000000000000000000000; P1 0x80000000000000000000000000000000000000000000000000000000000000000000000000000 0x80000000000000000000000000000000000000000000000000000000000000000000000000000; P1 0x800000000000000000000000 0x800000000000000000000000; P1 0x0 0x1000000000000000000000000000000000000000000000000; P1 0x0 0x4000000000000000000000000000000000000000000000000000000000000000000000000000000000000000000000000; P1 0x2000000000000000000000000000000000000000000000000000000000000000 0x2000000000000000000000000000000000000000000000000000000000000000; P1 0x0 0x10000000000000000000000000000000000000000000000000000000000000000000000000000000000000000000000000000000000000000000000000000000; P1 0x20000000000000000000000000000000000000000000000000000000000000000000000000000000000000000000000000000000000000000000000000000 0x20000000000000000000000000000000000000000000000000000000000000000000000000000000000000000000000000000000000000000000000000000; P1 0x80000000000000000000000000000000000000000000000000000000000000000000000000000000000000000000000000000000000000000000000 0x80000000000000000000000000000000000000000000000000000000000000000000000000000000000000000000000000000000000000000000000; P1 0x800000000000000000000000000000000000000000000000000000000000000000000000000000000000000000000000000000000000 0x800000000000000000000000000000000000000000000000000000000000000000000000000000000000000000000000000000000000; P1 0x80000000000000000000000000000000000000000000000000000000000000000000000000000000000000 0x80000000000000000000000000000000000000000000000000000000000000000000000000000000000000; P1 0x800000000000000000000000000000000000000000 0x800000000000000000000000000000000000000000; P1 0x0 0x1000000000000000000000000000000000000000000000000000000000000000000000000000000000000; P1 0x200000000000000000000000000000000000000 0x200000000000000000000000000000000000000; P1 0x0 0x100000000000000000000000000000000000000000000000000000000000000000000000000000; P1 0x2000000000000000000000000 0x2000000000000000000000000; P1 0x0 0x10000000000000000000000000000000000000000000000000; P1 0x0 0x400000000000000000000000000000000000000000000000000000000000000000000000000000000000000000000000000; P1 0x20000000000000000000000000000000000000000000000000000000000000000000 0x20000000000000000000000000000000000000000000000000000000000000000000; P1 0x80000 0x80000; P1 0x0 0x10000000000; P1 0x0 0x400000000000000000000; P1 0x0 0x400000000000000000000000000000000000000000; P1 0x0 0x400000000000000000000000000000000000000000000000000000000000000000000000000000000000; P1 0x20000000000000000000000000000000000000 0x20000000000000000000000000000000000000; P1 0x0 0x1000000000000000000000000000000000000000000000000000000000000000000000000000; P1 0x200000000000000000000 0x200000000000000000000; P1 0x0 0x100000000000000000000000000000000000000000; P1 0x0 0x40000000000000000000000000000000000000000000000000000000000000000000000000000000000; P1 0x200000000000000000000000000000000000 0x200000000000000000000000000000000000; P1 0x0 0x100000000000000000000000000000000000000000000000000000000000000000000000; P1 0x2000000000000 0x2000000000000; P1 0x0 0x10000000000000000000000000; P1 0x0 0x400000000000000000000000000000000000000000000000000; P1 0x0 0x400000000000000000000000000000000000000000000000000000000000000000000000000000000000000000000000000000; P1 0x20000000000000000000000000000000000000000000000000000000000000000000000000 0x20000000000000000000000000000000000000000000000000000000000000000000000000; P1 0x80000000000000000 0x80000000000000000; P1 0x0 0x10000000000000000000000000000000000; P1 0x0 0x400000000000000000000000000000000000000000000000000000000000000000000; P1 0x20000000 0x20000000; P1 0x0 0x1000000000000000; P1 0x0 0x4000000000000000000000000000000; P1 0x0 0x40000000000000000000000000000000000000000000000000000000000000; P1 0x0 0x4000000000000000000000000000000000000000000000000000000000000000000000000000000000000000000000000000000000000000000000000000; P1 0x2000000000000000000000000000000000000000000000000000000000000000000000000000000000000000000000000000000000000000000000 0x2000000000000000000000000000000000000000000000000000000000000000000000000000000000000000000000000000000000000000000000; P1 0x800000000000000000000000000000000000000000000000000000000000000000000000000000000000000000000000000000000 0x800000000000000000000000000000000000000000000000000000000000000000000000000000000000000000000000000000000; P1 0x80000000000000000000000000000000000000000000000000000000000000000000000000000000 0x80000000000000000000000000000000000000000000000000000000000000000000000000000000; P1 0x800000000000000000000000000000 0x800000000000000000000000000000; P1 0x0 0x1000000000000000000000000000000000000000000000000000000000000; P1 0x0 0x4000000000000000000000000000000000000000000000000000000000000000000000000000000000000000000000000000000000000000000000000; P1 0x2000000000000000000000000000000000000000000000000000000000000000000000000000000000000000000000000000000000000000 0x2000000000000000000000000000000000000000000000000000000000000000000000000000000000000000000000000000000000000000; P1 0x800000000000000000000000000000000000000000000000000000000000000000000000000000000000000000000 0x800000000000000000000000000000000000000000000000000000000000000000000000000000000000000000000; P1 0x80000000000000000000000000000000000000000000000000000000 0x80000000000000000000000000000000000000000000000000000000; P1 0x0 0x10000000000000000000000000000000000000000000000000000000000000000000000000000000000000000000000000000000000000000; P1 0x20000000000000000000000000000000000000000000000000000000000000000000000000000000000000000000000 0x20000000000000000000000000000000000000000000000000000000000000000000000000000000000000000000000; P1 0x80000000000000000000000000000000000000000000000000000000000 0x80000000000000000000000000000000000000000000000000000000000; P1 0x0 0x10000000000000000000000000000000000000000000000000000000000000000000000000000000000000000000000000000000000000000000000; P1 0x20000000000000000000000000000000000000000000000000000000000000000000000000000000000000000000000000000000000 0x20000000000000000000000000000000000000000000000000000000000000000000000000000000000000000000000000000000000; P1 0x80000000000000000000000000000000000000000000000000000000000000000000000000000000000 0x80000000000000000000000000000000000000000000000000000000000000000000000000000000000; P1 0x800000000000000000000000000000000000 0x800000000000000000000000000000000000; P1 0x0 0x1000000000000000000000000000000000000000000000000000000000000000000000000; P1 0x200000000000000 0x200000000000000; P1 0x0 0x100000000000000000000000000000; P1 0x0 0x40000000000000000000000000000000000000000000000000000000000; P1 0x0 0x4000000000000000000000000000000000000000000000000000000000000000000000000000000000000000000000000000000000000000000000; P1 0x2000000000000000000000000000000000000000000000000000000000000000000000000000000000000000000000000000000000 0x2000000000000000000000000000000000000000000000000000000000000000000000000000000000000000000000000000000000; P1 0x800000000000000000000000000000000000000000000000000000000000000000000000000000000 0x800000000000000000000000000000000000000000000000000000000000000000000000000000000; P1 0x80000000000000000000000000000000 0x80000000000000000000000000000000; P1 0x0 0x10000000000000000000000000000000000000000000000000000000000000000; P1 0x0 0x400000000000000000000000000000000000000000000000000000000000000000000000000000000000000000000000000000000000000000000000000000000; P1 0x20000000000000000000000000000000000000000000000000000000000000000000000000000000000000000000000000000000000000000000000000000000 0x20000000000000000000000000000000000000000000000000000000000000000000000000000000000000000000000000000000000000000000000000000000; P1 0x80000000000000000000000000000000000000000000000000000000000000000000000000000000000000000000000000000000000000000000000000000 0x80000000000000000000000000000000000000000000000000000000000000000000000000000000000000000000000000000000000000000000000000000; P1 0x800000000000000000000000000000000000000000000000000000000000000000000000000000000000000000000000000000000000000000000000 0x800000000000000000000000000000000000000000000000000000000000000000000000000000000000000000000000000000000000000000000000; P1 0x80000000000000000000000000000000000000000000000000000000000000000000000000000000000000000000000000000000000000 0x80000000000000000000000000000000000000000000000000000000000000000000000000000000000000000000000000000000000000; P1 0x800000000000000000000000000000000000000000000000000000000000000000000000000000000000000000 0x800000000000000000000000000000000000000000000000000000000000000000000000000000000000000000; P1 0x80000000000000000000000000000000000000000000000000 0x80000000000000000000000000000000000000000000000000; P1 0x0 0x10000000000000000000000000000000000000000000000000000000000000000000000000000000000000000000000000000; P1 0x20000000000000000000000000000000000000000000000000000000000000000000000 0x20000000000000000000000000000000000000000000000000000000000000000000000; P1 0x80000000000 0x80000000000; P1 0x0 0x10000000000000000000000; P1 0x0 0x400000000000000000000000000000000000000000000; P1 0x0 0x400000000000000000000000000000000000000000000000000000000000000000000000000000000000000000; P1 0x20000000000000000000000000000000000000000000000000 0x20000000000000000000000000000000000000000000000000; P1 0x0 0x1000000000000000000000000000000000000000000000000000000000000000000000000000000000000000000000000000; P1 0x200000000000000000000000000000000000000000000000000000000000000000000 0x200000000000000000000000000000000000000000000000000000000000000000000; P1 0x8000000 0x8000000; P1 0x0 0x100000000000000; P1 0x0 0x40000000000000000000000000000; P1 0x0 0x4000000000000000000000000000000000000000000000000000000000; P1 0x0 0x40000000000000000000000000000000000000000000000000000000000000000000000000000000000000000000000000000000000000000000; P1 0x200000000000000000000000000000000000000000000000000000000000000000000000000000000000000000000000000000 0x200000000000000000000000000000000000000000000000000000000000000000000000000000000000000000000000000000; P1 0x8000000000000000000000000000000000000000000000000000000000000000000000000 0x8000000000000000000000000000000000000000000000000000000000000000000000000; P1 0x8000000000000000 0x8000000000000000; P1 0x0 0x100000000000000000000000000000000; P1 0x0 0x40000000000000000000000000000000000000000000000000000000000000000; P1 0x0 0x4000000000000000000000000000000000000000000000000000000000000000000000000000000000000000000000000000000000000000000000000000000000; P1 0x2000000000000000000000000000000000000000000000000000000000000000000000000000000000000000000000000000000000000000000000000000000000 0x2000000000000000000000000000000000000000000000000000000000000000000000000000000000000000000000000000000000000000000000000000000000; P1 0x800000000000000000000000000000000000000000000000000000000000000000000000000000000000000000000000000000000000000000000000000000000 0x800000000000000000000000000000000000000000000000000000000000000000000000000000000000000000000000000000000000000000000000000000000; P1 0x80000000000000000000000000000000000000000000000000000000000000000000000000000000000000000000000000000000000000000000000000000000 0x80000000000000000000000000000000000000000000000000000000000000000000000000000000000000000000000000000000000000000000000000000000; P1 0x800000000000000000000000000000000000000000000000000000000000000000000000000000000000000000000000000000000000000000000000000000 0x800000000000000000000000000000000000000000000000000000000000000000000000000000000000000000000000000000000000000000000000000000; P1 0x80000000000000000000000000000000000000000000000000000000000000000000000000000000000000000000000000000000000000000000000000 0x80000000000000000000000000000000000000000000000000000000000000000000000000000000000000000000000000000000000000000000000000; P1 0x800000000000000000000000000000000000000000000000000000000000000000000000000000000000000000000000000000000000000000 0x800000000000000000000000000000000000000000000000000000000000000000000000000000000000000000000000000000000000000000; P1 0x80000000000000000000000000000000000000000000000000000000000000000000000000000000000000000000000000 0x80000000000000000000000000000000000000000000000000000000000000000000000000000000000000000000000000; P1 0x800000000000000000000000000000000000000000000000000000000000000000 0x800000000000000000000000000000000000000000000000000000000000000000; P1 0x80 0x80; P1 0x0 0x10000; P1 0x0 0x400000000; P1 0x0 0x400000000000000000; P1 0x0 0x400000000000000000000000000000000000; P1 0x0 0x400000000000000000000000000000000000000000000000000000000000000000000000; P1 0x20000000000000 0x20000000000000; P1 0x0 0x1000000000000000000000000000; P1 0x0 0x4000000000000000000000000000000000000000000000000000000; P1 0x0 0x40000000000000000000000000000000000000000000000000000000000000000000000000000000000000000000000000000000000000; P1 0x200000000000000000000000000000000000000000000000000000000000000000000000000000000000000000 0x200000000000000000000000000000000000000000000000000000000000000000000000000000000000000000; P1 0x8000000000000000000000000000000000000000000000000 0x8000000000000000000000000000000000000000000000000; P1 0x0 0x100000000000000000000000000000000000000000000000000000000000000000000000000000000000000000000000000; P1 0x2000000000000000000000000000000000000000000000000000000000000000000 0x2000000000000000000000000000000000000000000000000000000000000000000; P1 0x800 0x800; P1 0x0 0x1000000; P1 0x0 0x4000000000000; P1 0x0 0x40000000000000000000000000; P1 0x0 0x4000000000000000000000000000000000000000000000000000; P1 0x0 0x40000000000000000000000000000000000000000000000000000000000000000000000000000000000000000000000000000000; P1 0x200000000000000000000000000000000000000000000000000000000000000000000000000000 0x200000000000000000000000000000000000000000000000000000000000000000000000000000; P1 0x8000000000000000000000000 0x8000000000000000000000000; P1 0x0 0x100000000000000000000000000000000000000000000000000; P1 0x0 0x40000000000000000000000000000000000000000000000000000000000000000000000000000000000000000000000000000; P1 0x200000000000000000000000000000000000000000000000000000000000000000000000 0x200000000000000000000000000000000000000000000000000000000000000000000000; P1 0x8000000000000 0x8000000000000; P1 0x0 0x100000000000000000000000000; P1 0x0 0x40000000000000000000000000000000000000000000000000000; P1 0x0 0x4000000000000000000000000000000000000000000000000000000000000000000000000000000000000000000000000000000000; P1 0x2000000000000000000000000000000000000000000000000000000000000000000000000000000000 0x2000000000000000000000000000000000000000000000000000000000000000000000000000000000; P1 0x800000000000000000000000000000000 0x800000000000000000000000000000000; P1 0x0 0x1000000000000000000000000000000000000000000000000000000000000000000; P1 0x200 0x200; P1 0x0 0x100000; P1 0x0 0x40000000000; P1 0x0 0x4000000000000000000000; P1 0x0 0x40000000000000000000000000000000000000000000; P1 0x0 0x4000000000000000000000000000000000000000000000000000000000000000000000000000000000000000; P1 0x2000000000000000000000000000000000000000000000 0x2000000000000000000000000000000000000000000000; P1 0x0 0x10000000000000000000000000000000000000000000000000000000000000000000000000000000000000000000; P1 0x20000000000000000000000000000000000000000000000000000 0x20000000000000000000000000000000000000000000000000000; P1 0x0 0x1000000000000000000000000000000000000000000000000000000000000000000000000000000000000000000000000000000000; P1 0x200000000000000000000000000000000000000000000000000000000000000000000000000000000 0x200000000000000000000000000000000000000000000000000000000000000000000000000000000; P1 0x8000000000000000000000000000000 0x8000000000000000000000000000000; P1 0x0 0x100000000000000000000000000000000000000000000000000000000000000; P1 0x0 0x40000000000000000000000000000000000000000000000000000000000000000000000000000000000000000000000000000000000000000000000000000; P1 0x200000000000000000000000000000000000000000000000000000000000000000000000000000000000000000000000000000000000000000000000 0x200000000000000000000000000000000000000000000000000000000000000000000000000000000000000000000000000000000000000000000000; P1 0x8000000000000000000000000000000000000000000000000000000000000000000000000000000000000000000000000000000000000 0x8000000000000000000000000000000000000000000000000000000000000000000000000000000000000000000000000000000000000; P1 0x8000000000000000000000000000000000000000000000000000000000000000000000000000000000000000 0x8000000000000000000000000000000000000000000000000000000000000000000000000000000000000000; P1 0x8000000000000000000000000000000000000000000000 0x8000000000000000000000000000000000000000000000; P1 0x0 0x100000000000000000000000000000000000000000000000000000000000000000000000000000000000000000000; P1 0x2000000000000000000000000000000000000000000000000000000 0x2000000000000000000000000000000000000000000000000000000; P1 0x0 0x10000000000000000000000000000000000000000000000000000000000000000000000000000000000000000000000000000000000000; P1 0x20000000000000000000000000000000000000000000000000000000000000000000000000000000000000000 0x20000000000000000000000000000000000000000000000000000000000000000000000000000000000000000; P1 0x80000000000000000000000000000000000000000000000 0x80000000000000000000000000000000000000000000000; P1 0x0 0x10000000000000000000000000000000000000000000000000000000000000000000000000000000000000000000000; P1 0x20000000000000000000000000000000000000000000000000000000000 0x20000000000000000000000000000000000000000000000000000000000; P1 0x0 0x1000000000000000000000000000000000000000000000000000000000000000000000000000000000000000000000000000000000000000000000; P1 0x200000000000000000000000000000000000000000000000000000000000000000000000000000000000000000000000000000000 0x200000000000000000000000000000000000000000000000000000000000000000000000000000000000000000000000000000000; P1 0x8000000000000000000000000000000000000000000000000000000000000000000000000000000 0x8000000000000000000000000000000000000000000000000000000000000000000000000000000; P1 0x8000000000000000000000000000 0x8000000000000000000000000000; P1 0x0 0x100000000000000000000000000000000000000000000000000000000; P1 0x0 0x40000000000000000000000000000000000000000000000000000000000000000000000000000000000000000000000000000000000000000; P1 0x200000000000000000000000000000000000000000000000000000000000000000000000000000000000000000000000 0x200000000000000000000000000000000000000000000000000000000000000000000000000000000000000000000000; P1 0x8000000000000000000000000000000000000000000000000000000000000 0x8000000000000000000000000000000000000000000000000000000000000; P1 0x0 0x100000000000000000000000000000000000000000000000000000000000000000000000000000000000000000000000000000000000000000000000000; P1 0x2000000000000000000000000000000000000000000000000000000000000000000000000000000000000000000000000000000000000000000 0x2000000000000000000000000000000000000000000000000000000000000000000000000000000000000000000000000000000000000000000; P1 0x800000000000000000000000000000000000000000000000000000000000000000000000000000000000000000000000000 0x800000000000000000000000000000000000000000000000000000000000000000000000000000000000000000000000000; P1 0x80000000000000000000000000000000000000000000000000000000000000000000 0x80000000000000000000000000000000000000000000000000000000000000000000; P1 0x800000 0x800000; P1 0x0 0x1000000000000; P1 0x0 0x4000000000000000000000000; P1 0x0 0x40000000000000000000000000000000000000000000000000; P1 0x0 0x4000000000000000000000000000000000000000000000000000000000000000000000000000000000000000000000000000; P1 0x2000000000000000000000000000000000000000000000000000000000000000000000 0x2000000000000000000000000000000000000000000000000000000000000000000000; P1 0x800000000 0x800000000; P1 0x0 0x1000000000000000000; P1 0x0 0x4000000000000000000000000000000000000; P1 0x0 0x40000000000000000000000000000000000000000000000000000000000000000000000000; P1 0x200000000000000000 0x200000000000000000; P1 0x0 0x100000000000000000000000000000000000; P1 0x0 0x40000000000000000000000000000000000000000000000000000000000000000000000; P1 0x200000000000 0x200000000000; P1 0x0 0x100000000000000000000000; P1 0x0 0x40000000000000000000000000000000000000000000000; P1 0x0 0x4000000000000000000000000000000000000000000000000000000000000000000000000000000000000000000000; P1 0x2000000000000000000000000000000000000000000000000000000000 0x2000000000000000000000000000000000000000000000000000000000; P1 0x0 0x10000000000000000000000000000000000000000000000000000000000000000000000000000000000000000000000000000000000000000000; P1 0x20000000000000000000000000000000000000000000000000000000000000000000000000000000000000000000000000000 0x20000000000000000000000000000000000000000000000000000000000000000000000000000000000000000000000000000; P1 0x80000000000000000000000000000000000000000000000000000000000000000000000 0x80000000000000000000000000000000000000000000000000000000000000000000000; P1 0x800000000000 0x800000000000; P1 0x0 0x1000000000000000000000000; P1 0x0 0x4000000000000000000000000000000000000000000000000; P1 0x0 0x40000000000000000000000000000000000000000000000000000000000000000000000000000000000000000000000000; P1 0x200000000000000000000000000000000000000000000000000000000000000000 0x200000000000000000000000000000000000000000000000000000000000000000; P1 0x8 0x8; P1 0x0 0x100; P1 0x0 0x40000; P1 0x0 0x4000000000; P1 0x0 0x40000000000000000000; P1 0x0 0x4000000000000000000000000000000000000000; P1 0x0 0x40000000000000000000000000000000000000000000000000000000000000000000000000000000; P1 0x200000000000000000000000000000 0x200000000000000000000000000000; P1 0x0 0x100000000000000000000000000000000000000000000000000000000000; P1 0x0 0x40000000000000000000000000000000000000000000000000000000000000000000000000000000000000000000000000000000000000000000000; P1 0x200000000000000000000000000000000000000000000000000000000000000000000000000000000000000000000000000000000000 0x200000000000000000000000000000000000000000000000000000000000000000000000000000000000000000000000000000000000; P1 0x8000000000000000000000000000000000000000000000000000000000000000000000000000000000000 0x8000000000000000000000000000000000000000000000000000000000000000000000000000000000000; P1 0x8000000000000000000000000000000000000000 0x8000000000000000000000000000000000000000; P1 0x0 0x100000000000000000000000000000000000000000000000000000000000000000000000000000000; P1 0x2000000000000000000000000000000 0x2000000000000000000000000000000; P1 0x0 0x10000000000000000000000000000000000000000000000000000000000000; P1 0x0 0x400000000000000000000000000000000000000000000000000000000000000000000000000000000000000000000000000000000000000000000000000; P1 0x20000000000000000000000000000000000000000000000000000000000000000000000000000000000000000000000000000000000000000000 0x20000000000000000000000000000000000000000000000000000000000000000000000000000000000000000000000000000000000000000000; P1 0x80000000000000000000000000000000000000000000000000000000000000000000000000000000000000000000000000000 0x80000000000000000000000000000000000000000000000000000000000000000000000000000000000000000000000000000; P1 0x800000000000000000000000000000000000000000000000000000000000000000000000 0x800000000000000000000000000000000000000000000000000000000000000000000000; P1 0x80000000000000 0x80000000000000; P1 0x0 0x10000000000000000000000000000; P1 0x0 0x400000000000000000000000000000000000000000000000000000000; P1 0x0 0x400000000000000000000000000000000000000000000000000000000000000000000000000000000000000000000000000000000000000000; P1 0x20000000000000000000000000000000000000000000000000000000000000000000000000000000000000000000000000 0x20000000000000000000000000000000000000000000000000000000000000000000000000000000000000000000000000; P1 0x80000000000000000000000000000000000000000000000000000000000000000 0x80000000000000000000000000000000000000000000000000000000000000000; P1 0x0 0x10000000000000000000000000000000000000000000000000000000000000000000000000000000000000000000000000000000000000000000000000000000000; P1 0x20000000000000000000000000000000000000000000000000000000000000000000000000000000000000000000000000000000000000000000000000000000001 0x1].

(** The power is 0x32749246cef38c558b84265cbe9454c5b08624d5cb14a69636a701122712fcae5faafa042ad6c33247520b119fd582bcd5a02f43e801348f88f734ddb0b41f5b39. *)
Definition pow_c521 : list pstep := [P1 0x0 0x3; P0 0x0 0x9; P1 0x0 0xf3; P0 0x0 0xe6a9; P1 0x0 0x26f7c52b3; P0 0x0 0x5ee7e56e3721f2929; P1 0x0 0x698d5ba661086278add272ed7c87a479b3; P0 0x0 0x2b85433c91af7921692ef71435894b14a4434286f9e09132c1ce47f6356ef132b329; P1 0xb190e 0x1dfd69b40d2a5d8c20c436d43cfdc5d134dca9543ceedebedcd503148297261a50a0307325f69f22665724c8555a3e5f3194d541f81fbbade40ad6851cd023e2ec1; P0 0x1c1b2667241682ef5b1865946db85af268ceffdb7667ace5ffd94002b513fa5f7a0884f3e2c35568c6e498bd820bb873b12053f9e6f072aad9a3ac30664c17b5142 0x93d370e357342ddb5a75322c72679e40c1ea5a1519560ff5942243745d44332bc8e1e59ce8a6be69af0bc1fa74378883f117b14c720b8a076902c5115473813ec3; P1 0x800ac36c8e07144e64c33529b5cf126bb96ba5b6755bd95dcd16d784744664281147a2d15cc6cd9db4ea18517b366c10687189dc7671fbb45e179f7d1cf554f68b 0xc6f4a433d339c0e25389438b3d6807ff6962f631f3d4e2bb05aaa3e29ee4771059c26c9e5cf755d06d446383b6c3bb58c6ba6f526227e87d8a85c6ddef7b101026; P0 0x4d4fabe4cb6d36cacf8a542aebbb845998e0d39109896f1a2432f79ea81ff1beab0568d78a349ac76882806b12ec79a426405d71d73e5a1a654a3f866197b0d3e6 0x163758a75841c5010a0e69cac85c2d14d10d08acd73f08c53dc75c41caf26e6c853d184f87af5fff55b01f8fc541445c62dea8f7a6d5909077e800fb9dc2175998a; P1 0x2e456cdf6aa0e4877c6bc79883a7bce30458b340a4519bb9b12411a1062233c61789279fa869e47500f71dda862be2c053d80d9d6ed4829c08fe1646abf7991eaee 0x8418c0f270f5f34d83daea306ee92b25ef12b9297e9f6e6457df4ad9510d32da962dc40db6b9d70edce6d3f3a189440494942b3697f25410fe57230d215240a61a; P0 0x2214c4af61afb0081f27700978cd6befbb94c3b500db43ed938c88e68360f70fe705cdc529878814de533ebd59465588e9b2462de4cb6191fa5214c2a84eb9ff44 0x796bdd3b403500616f9b747fed80511b0fd01752ffccbe7f51aef340e967e45e8de84bd24b5b3868708d5a54c5020e902ae3945d277f2f42d64927b4186f7fb9e8; P1 0x5662b6df0a1db1dae437cc470f99bdff8e667fbf436dd28970ca0c14ea572372afdf9c15d43f4aeafb5b8ce0f5b7a21e541faa4e54d73d58b617ce19c1f25056e0 0xcaaae5d32019a55c3ba7bec8b4ff5665aed2dc83a40eabb102d3ac5c320958b8b0fe61c5dff500071a1c5417735e2a545519f0617ea32388b17b1751573e3bda0; P0 0x503912639cb140487e63fc45abe4435c7fa289ab47e33c57b5ef579692cbaf5eaa3fc4501f282dc1d7a2aafa7d4076724f019d137ef4a9991f1a4e0bfb3b6c86 0x145ca95e3cf5814995b2c7c41545ad316023184814af7f6e5a35fd18e5d9ca01b50f5b756d922d70f85fe0e27279873de2defeeb17e85c460127982114391711086; P1 0x26dea0157f799c015ae722a1e6c059f7ab03920f8141e7e2379e16d01853e746207e711fe954c3261a105d5982f22c2a14be9788b446ed953679ad631176e5eebca 0x7177b38f12b37e0416c8bc61d72c5641c3aa3dbc27350c54fb75f3473f1fd6167a3639df142e44735c7f5d628b44466577c1dfbed8071db6bd5f235b799875fe36; P0 0x1925723e5dbb9e1dd6045076dcc94aa4146d7e530e29061776e233e77757bbc819df893a2da2584d160bf9a2320d3e32efcbdb1021de3584e9dad27dec0603facd 0x53dbc11f47a69a8cfc1e7871a699ef95d7a4bfbddac92504baa3a377093abcae85365bf0f8b9083d9377b41839cc8d3e1c9e86afdb13697bacea7853a7fcf2e31; P1 0x293459cd688033af3a347204a82fc9233d9a7e83e25a87aa0c0dc7f449118d54eeaeb0e0fbe88986bb1b499d0e0160cfa4c44e9e2b2675744dfe9e5a7e8c4316 0x18bdc0f2b8a659a50711927e5cf8aaf6286338bae199270686193dd9ac5a367d333247166bbff6ebd6faa9e84a8f0b5d0c93af9187603df4b81fcd5cd778b473339; P0 0x1321069fd3868c53a94277daa468021a9ecb30f00ab22cbe8a9d0f50ed652f24c3b5d5837d62bdded0d345735e1775894dd93b9699d65164418ef6e276a4957dff6 0x7beb2f1d8c55b4adeee586a4c9e5ba01e851b6d11c0ae3c71faa899a1a1754edde03521035e2293536bc484641e6ef97db9ef46090f633e7c1344975d5a335a2a7; P1 0x59f9c300e4a8ccde2160b8538276c4ace6c4c652fc72bf7f8a4547bebd25b143a24793e8fe8ad846f841dce409502153548c65f775146326591aaf1a9c9c6ad3ec 0x3d0051c249d4de0a3f1853890565cd72f76e53b3d1324bddae31c0525408391aa1a06548d388dad970924e3dcf5d8855869d146fd6a060942afe591366dbe42ebf; P0 0x744937b58a5fbfec93fd97355ebfd6289496efe47a5065a25e7699999bbeae6c799a231bc2a4bafce8ae04a534bd67f538c75e8aae285fc849ea9905ad570153b 0x1522675934ce477f669ec1ae83604e50bf0f4fdce43dea50b45b191e4ec4a36e355d627f114806106ee2addd1205829fd4b32b6050f4a084a93f91d5decec3147bc; P1 0x29dfe5e601f292676cbfa8d1f4309fdcda2ab04eb59a87e1d066067e35fcaabb663d31e1f2a08f459f8a7849b10791841cf55299cf3ffcee521ffdaf5a27daf8df5 0x584842b554b66c7e6d6463494b73db9aa9e42813c9daa5a47c0c717f011e810eb37e2a56fba234a2988a0ae316bf76769606398edea614399c525436bffbe50425; P0 0xf38e12120cf88a97420b08d0ce44faa10f71e62f7fb0a0c92897f0767fa2955edc0053eace57671f4980d39b3c31aeb3f7d09533d65d40c25749d5004b2dec3b6 0x8af033fe0e5588585a94d5241b7896457da3467e98ce08da2a0d2643b8ebea5e56ab21790c264681fb31e0d5667babcb7b7d7a337ff9a3266e563bfe3bab21f10f; P1 0x711bc627258d73d025444ba4a82aeb62e4183385efc396e0f979b057e2ae848f8aaac82e0b1012d0bd15f20f4aafae6e29e6f11e5e119c5a9488629b1006e78db8 0x110399a193e426b219ac0de3365b5d26a8bfb3622108a26b593ffb01aee2d9f8fb27a03b77879ee2a1e7644b46ad515f132a5ea1c59bdffa0912650536c3f794a5b; P0 0x90bd3a35d0269f501f692cf810929cae582e695b242d1596f0447a466422467009debd6f12d0bc41770f051f635a63b5d80dd2d4002cf01fffbd6fb3d8aab43e15 0x11e368ff4ebbfa62b294919ca2e6610b6856294dfd7bd9eb9bcf2446b94799776a7f988b29d7c7af6d5d2d1be33fef4db84d129bca2924127e57e9a5eb0d452fa6e; P1 0x1dffcefec708ad0bf56cab81e6bc8b85713b57115bc09c41907c4f76b625204b403bda35d1dacc4facceb642d2b4f382d665f87dc6cb0d9308837ea0172077fe98a 0x12d12dc9cc6640bc064044cde2b37abb736c039bc3127afa9d1b6a5e107e77dfa57f6e3ba6e42ee1a6475fbd2904f3b053b52999f7a6d08402dab41fc34c1d8ff56; P0 0xb10aae1637587f5935100a82a9e4b50fce06c53381b880f0c7fee2cbe4f1d57f8124ff283670d7f86c79cbcdcbe4a832a3e19118c0c167924cada5f8bbf4c17a5f 0x58885308b1c6d19e53b9bbd336f4d0d428e64941a1d9ccff357550e3f228a6fb668bf150939163a0ae8604a5abea7fa6fbd49a75211ef69459c4f3ec9b808deb43; P1 0x2ded02857596526520626c6574e47946e372f1f02e4ac115d1e591e10dcfb52a8fcf1c629b54d817fd5926b7ffd099ccfccfcdcf7ba3b7d6906fca0a171d0671b4 0x8808b8d27c910eef77fed7cc2e52501324e0d79181358a7ada9f119906350dfe51d6b66a55ef84fcb54ace8c8f49b1df7ab59aad6f12584fc3dde5f94d1d0cac4f; P0 0x2424a255db7894883f43ed9fc556e45589323e7aa5930458c74e66aee42df34ecd2bc5de0c966a0bede01cfc6919b3221bec47945ab834bf0e2a18eda934731f2a 0x1d3873c230323ab24d94b9f5ef7cbd1eec944b9c1b82d8084c92f89927113bbd50a96dbb9729523b1113fbbdb3ae829a66b3cdbca3d7910f551f98c22d9b5d55f8b; P1 0x500c2034454c2d06e48808330d0cbc189dc0ace270953959c0e7079e6044f4fd68ac755a68789e7264fed105d34069882d5a81e4a71231a043d7e087e90436aae6e 0x31ebeecb7c2557abfe4b190d554c3cc96df7f1d5ff4727e3c85ffa9c26d47808d7dff6098e1d19195420d0f62a4d33da30743649168ab1182d86ed705a504e0ed9; P0 0x4de156d16ed9a592dc753b88d7375ad5323f315fb7929321e7c2c60c9a6c698047c9ee8bc400101b6f44771f30c84004443f885f061816f8ae317c7b1f7b35eee 0x76bd5d0b8f81f91754acf13b2a1c58494d7c5c19a0a79dc7fdfeaa2131b633cac06f3242ba0025a56a5e95e529f001b8357885e5d58066e60869f2f95aa4cbd2df; P1 0x529cacc5c3c6ad8014a8eb50123073582be999061ceb177e27530062f2cf36e5cc50df3fc95e6013fdf65cb9a0dfb62067d7e02fa32d24f9be8feb84ca59256a07 0x2d1f17a39f90a3cb1916e4c1a3c8328ac7090ef7422121eb114a0e52e9ed44b1d104c359928eb6e4b0e2c397a8b2e999bb36ae3d9a25834a95bf93168fd33b44ca; P0 0x3f9f90b20f426eed28b1825409789a1b47c3e2bc121f8c27936df2e016fd323fad345986827544d8feaee2034014158061e42fe05b90c37db89186ca22c7d2c6a 0xd9589778f886f0470e7bf8cc0c157c8437b1a1712ee6405cb6a662a5dd009bd9def9070133ec74dc8996654d4e347a9fd57ed38f5032e722d1cf68bf6bf0151bce; P1 0x114caf72d5b2f55b229f4671456b30a2f932f35743bcf43856a76e367a87dd72fc20e00648b8d4fe8ea34906f05d08678db1d98e5efcfb7610e3cd7396fe5c140a5 0x1f265a3a8a09f860f427337e11140a09e8515aade750cf1c17e518f3bc765e96118d9bb08635af973abecffea18607c215b2497625e89d811c1a5d5e1ab5e348df1; P0 0x1e527cc8b4e4dc788c0b8f0f947a8c65c524efdc99ea06032b6f0032ff558b8db9194c283f22d6a63b063166cd35d64ff02c131e7747007f2a07716b54a6180e098 0xdfae66412be95e596d1abb403ab163cf2064e95ffe6733c3009f296e1ac522a4426225e62c5ff8379dc906f9d554d4f13582ac4f8b24592abeb2829a47561c3d79; P1 0x12529f36f0de864ca054d6e071bd8b9023345bacc70355417a3cb52b83df7e8d8d0818b281e4e4cd6f80a701187485143aa64cfa4f46042129e0b766ba7430c2c28 0x672dd2c656055937b2e5f71de4500ed4d5ca537112f04ab87b64fa91760591e6f65385c800ebccba29c698a1813abae56ea6c247e0b872d262b3e66841aabcd5bb; P0 0x14caf3e7b03e453b118b76b57d6ca1357ea02f94f685df49447f1442c573316024b835cfe4a2db016cec6a085241bc9d8de1349c74957b83772209ddc115a066a1 0xccab418beb3e6e725065b89fae330aa85a46e36d4241c215fb94e35b5b6c486816ae083cf7015fd049845f0ac9df88e78b5b6f74af9c7a3c684379adde0eb91d3a; P1 0xf572148b70f02f0b1e5ac9a67bb1ab1b05f22fc45fefa6b8e3f2306de172bb7da4bc5a453ce7df446e8633a5e6a76eaff2e26ecee2977afd5b20da40cc6480d964 0x1d50017405706f4275e83de93fd6dc3d9c85e56387a78d1b128d1e84475b320eec299d9b07642979908f66fed82c014d38b21441d7296c1dd24498dcdbd2fff6cd0; P0 0x1ad9caa98e07e0d33909f072c27b9996a5e651d52fbd6a19493a65abd8dbe4bde6b383d65d82353c9a76b254260a2548fe4b115d850cb159f2b13597485edad72fb 0x6edd6a4cf1d7bbd74543283f812644f61c07c6703299c5048766a986420de8829f9cb8fc4ece305f2a24e362a43b4dcdf04378442d4b8a6fc68ce50874424d9bfb; P1 0x48048a483f3c24f5aff97ec6c17e052e7486b41ebdcb3c7efb34ab489a751034dbc0afb605756087795a72a7ae864d6c486071688ce31d2c45db5a19e387c2423b 0x2d2fca9e30072dc2e82a9747c055806f6ab788bbacc3d44862b6cdf2cc7075d6afb25be80fd14865cd18b4f3205a8fdd322e26cf20b44f23fa447902967d9fa86; P0 0x3fceb13d1ab1721fca37e949896b5dbc37f31f1fb30c431825dcc8e9535e2e804553578bb5a4611e6ba76af5d5eaec559dfba9a54aca8e4c9ba8ed0d68bdfd9 0x1709ac54824862068c257b232676bec6fcda77b875b9d4cffc6898ac33f8d220c006c443ef831d40c090a931767048913cd401558b68000ce4517d8aeef56e1ddfd; P1 0x31c1bff2209c080a2c0f71ade7ffe7dc1f45692b149f31650298ba651a9e0f8a3b2c5cb04c696074f541284a6a8f132b19c47677b08ec85f33c3682503fd61d465e 0x1b2e2b387f0655f92c554a1bdf0a0385cffd552da72713bf4b6a9341d7870b4b397174f0adc1d6bbe627b67b7e470ff355b47943b40f8b0bd1b8c4928bbafc7aa79; P0 0x17162b8bd3281c6b3ca43d2f6e8157abc7795cdd719b47e61496e10b7bb01b8f5d5757e67415a1ce7548216bc27dd57d7bde46eadbf0556a7ee64fdb39f26d5b67c 0x1ea036a3bc68e0dbafebdb8eb36f9eedeb814ed9e492786902cc3e0e6dab69b730740fce87346092b829e37e4e0022e57ac9bd80fad4b531a50a1ab27310e78a3ad; P1 0x57ee99c14bc5e036a629e3954b03009d0e64d4f64b125135b48d6a0d9fa47d66dcb5fbd3a2daaf58b6bbea0413320f090134feaef76d328c3a9ceb6f508f35469b4 0x8b2eafbb51e7a5776ed945a97496bbab29e215ca1e4e375d034cc50ee894fe5f9d6135d68369c93ccd5147f4404b59995c94612d493ada40967ead4ff947d5b26f; P0 0x25d5ddac85724ffd50129b0ad466dfdd7f95978f0cc1ded9ae50f145f94bad9ae36f5a5161424091c2e9d7e8b39664d35671a3031219505870e127b6b2b64928b6 0x112401ddc8144aab1899c4a4056dd4f6f3be95fa2be1d1b6a8ddaa5f4466d3f1fce7d0a0d21d7c65939973515e2076266049d3c6547e49e3210052b8ffcb15db4d7; P1 0x1b8b3f7f871acfc6a11f6dcc83e90640f0f00d285bc8dcf5c310cd44ffceb71f3ca983dba3640754cba1f3e07d0c4162d79f131c22dedd293863df4dbbbbde755a5 0x182554590a635210a6d616b1cd1222f33c172b8e2ab7ce09a9d29b9b0cdcbd1577c4817538bee856a1bb947640732add702de7d7f0b8176ea84c2d7aaae53c67b58; P0 0x12382a117bd16f11fb7221322e8c9a909586020074024a086d8666326a92989ee9b29e25a55f4899ea439dac6a790a63be6b78e1cfb3c3d284a4fcd27f01ba6c4d8 0x161d099a2d9de12272827aab012ff83d7545c7b00325d03d39c41314ce5672e5d04dec6cb416b0cb7e7343dc64deee19b02bccb9321391ec35876a8016e33347318; P1 0x2dd816a83b282ca6a16cffc3a9506ab3d61458a007551a8e50f253da0585791c52fab2af7740e05bb84072ca4beef47d4437cdf55d846b6a8c071e94a7fe24a044f 0xb6c57a51b2e8a41bb448668644fc1c39ad920426b31110161dd7d515dcaf12972e23dd98c75f1725324edb8ec4f31f75c29417a514fd548a975d0e662f72c5bb0f; P0 0x413eb120d3490dfe33d28119173239531d72621000b0bd167fb51a371cc40a4515eed0f21d49e7535f08a5f9ce217250c19d10a01f2a9bfe97232c1ae980c9cfb2 0x1ad8adb057f97827187941f0d720fc68f4b7805f3b39d746d268850b1b7425522319e6d4b6fbbb6512bce8ed2cd593efbeaaac280b9f4c0e61367ef71be4a8eba93; P1 0x439180411f06aa46ee33c6ee492eab3a4bd5b15c818176b25a1810a33ed72cdace8709b54700ecce8c6a1cd62cf75082af4c5d2093be141f4a85665db86843ad3d0 0xfdad5b34fb0058b75b9cb5d2c2b0942ab56f7c6842a8575d1363404774406b8a1ca13e2fc060c7ba59fe73ed96dac796eedfd9d8fad39849d496b07e740164a50b; P0 0x7db00dd58f1c519dc01ad263507edd34378303ea4f75e987f648d426f9f0988bc0236256c970e2691c1edaa160576fa9d62bab911b0b3ffb50a6f675b26cc781ca 0x7ba7537f20fb96a077be8c776f908bf36158bcadf64b016d5dc651789c0f71c988babcd01bfc5aa277df335679066cafe3aa96f0f6eebbdd44cfc4cc85ddc6b043; P1 0x599753674f2fb64266f50d08da9c3e6616392add259539283114fa13d792decd2135e343b608e2c7c2bf6e94c5c2eb785e85d8a6aa58b30af14105aed3a08e32b9 0x1003837f830a72db532a6e9d20c5ee3d360e4e56c2cd658a05c53eebe6a1a192ddd2bc08e78a14ed0b801a0ea665e379801051eff301b1699f68f496b480d8ec754; P0 0x80383e2475101d0a43afc2e86f082d7b2c7920782521943873b86e2f0b6b7e1b9d146fe06394fcbfcb5018201a19e92ca70b883dd983832dc7606cfd2c4ad48a58 0x588d71f43b1e707bc1b441862663f9e922159aff8dfd0e17d79ece0fa51023c16ecafdc88c3b04a3812d9ac337e1b1c493a8a4318711cf38f1e1fd244c8f383de8; P1 0x2df252bdf39b5b15eab708fd95030bfd758cfa900c5182c28d6f29134a879aa70838c5b1dbef15c9e4b23f008c159046a4ca80806d6d0922115b7adb8b9ae81acf 0xdbcf9a87161e4901c1e857f584f615ead33ccdaa3a4d1c589c6d37ac770e056aecdff4d145d5bb54e8eb297bc8aa8d7372abc870cd063401fd61f485589851418f; P0 0x5e5e6d5f31ca31e3ec25b8c1edfccd46f72acd5b350a69da299460c9976aa28e7b6694e1957f3e34bd063e12993eb1d9bcdb14d258d80a9b4c39ef5594e79ce126 0x6bb3ffd1a9b33431d1321d5c9b2d3a02f3b96cde6a6ae195790aa9db54820a9b501f0423ed56579eca2d6f14c0473d8ff45efc1a5d7b0669731123958944e4cf07; P1 0x43f7f19d840bb709416e81a08b15596dc2985424880afb29e58e9855f3b0d67c177265fddcd04e6702331cffd5433d43acf9699398fd7d696d5817361bb6b7f210 0x167cb73c6385295d452f5fcadf91d20d001854c72a7b054184f747f869a6ae964faf0b7342920eacc85048d743776b905d446e87dcc70c38de16f1f780d2264e8a3; P0 0xfcd62033615851a43f151ffc9d10c6fa64c7e22942affd0b1de495d418bad88847b874244c20536869bb4314c5d208abe6869ebe56f9246330366fab7c89d416ac 0x17731460de788b54eb67b70c6fa2786fa3f46dd686a85f6bed9d5bb1839a6aa94d6386cdff8fd83784f89c36e3c8b24f46c3ff72e5b4e6906cf04e1119c6893ee75; P1 0x338d21714f139215328c9707b04ee56c486f80a628aea0ef8381194323c33fab44b01121c2c3b6189e0b5daa49a097df1e05aba37514729afdc8b94170936a96c40 0x5615748b4a40b0d70db89b1797907ef4a0b27cbf06f5bd6b3995156cf4a4dcb3dde0414bc934995f535f819e35442731d7af6d97a4b692d24ece9e2681901cb0ab; P0 0xe79360cf4e61640ec4656855c2bdebbe5c7307679530d6f378916b503eda05bd4fa119fdfda413f052c08e02781638cd65d9f2492eedb615e33eb82fc9774d493 0xc2facf64a33e30e2dedb9d2b2a446cac86166303cadc605b0d44a64ef79323664a22b4aa557787717fd8c2379f0f2bd06d416954a68ae25daa8d7c9d4a16c866cc; P1 0xdec1a4155ffb7eacc4ec31396ab37d5ca83bf902cd070dfbf7a3c507830a2ce25e56e906844fd366f59e92c6d4ece08c0a5d115445276975203bd7753bb76ceb50 0xe6b820ce49eb1ee713139587454b1e0a48c234dacb72fcff6109f4fe4dc2cead0e4072cffd4f5a5dd3bdaff95554ed6a28593d7692270c0c3a18a192af3f828300; P0 0x67f7afb0ecc87b1cbaf50687925b1ba1d3ccfffe0844fd787bd38317a9b0b2da233218b9fd4caa8f710dd724b625971d574662a8388832f285ef4fa4975cb7332b 0x1e7a4ffd65ec20fcb9021abbc18fb2ba74ffe67b7d54e1fa7897d729bd29f78fa2ffb9375293057fae2354099f24796f865ed216336840105a776ec3d9aabc0332b; P1 0x57157c7979a4ac788d944b612c1b836135e9302e672f75d1b45af07b84681fd2509a95e1da0cabccbb50c941f2c8eaf60c449ae808cfe16bac3edb922ecf65b6da1 0xa513fd7edf06bd28dfc9ded86221bb257776fbdbb107c22d0f47776c22565c49bc2066a8b395279684064824a66a0b4e68cf82d5b0ac5ed195ec204a19ac89e94c; P0 0x3539632a93abe74531ae96c2f7af55f0c5c49b7346a00019bcd883cb3bc2acf3edf969fb8aa4b62f6a75b531a59325cef159e56380e9de367a5f6721fcba5b18e5 0x34ce10f3b2e86d0205ee277f98d4ee207dcea9b00417698bb1cc09d39ce6f409e1c5cf5d4d5e7939f784bb41b603af7b184a026514572223e3b4803e9e624e8775; P1 0x10568b236f02950baa5a4cc7813e159dae0b2be3539f7d313f4aa1de9fb829f18e039ee8ea96eea3fa5b92482bb692decb9ac5da718a3b57737733dbba2b19f747 0x154ba120e5f1a37e82f1c97391b9aa30b8b15fa2f0184ebbc9bcfab10777483896f033f90116a29c1b6ce8c46d3fdfeefbbb7dba245b63781cc071824636003c9b2; P0 0xe2bf639a3562ee641a4bd1b72b84e86594cf3ae8a2e5c441a3b5d419937fef3b5b34b7f2cff5cc0316f4005f4bf81b8f2feeb325a7a7b696ebf026714ed4e1c176 0xa66b0bd3c7294c87ba33c83948dfa79059e9046b0c359b059e13b4c8b6b72457e12bbce3263a366e8a328abe3d39644b08a120456e888fbdedf531584eadf6c13a; P1 0xa24680264ecce5202ececa8083337307b864422fb3caf4af380d89ad2e8f74b3f9ce45e09940e12c1b402b068c9b6cbbf7f1a3a4908d0836e952ec17f92426e523 0x8b0eec03b01506b695eb716100b639fdba4982c5dbf396d3738b3a2f7024ca21dd6b0eeaf84b77bf2a46438042189425c455cab046f6adb55a9fcf43021818688f; P0 0x25c49a95559a7225b060e543411b6f223301dcc9a40752b63af4bf83f66d66170f9f7fdcea19b5e0884c3de8e0a3e889c11dc254d243f30636f29268231c4d04d0 0xa487b8fe5cb9ef405b986345d93552d5688e8c81da0be590a67c5cf0bb839e7273b9c5449bb72e012d9d1c65e699bb55ec3feecd8be71822bed5357a4db1d184b1; P1 0x9e9d4377cd23fd02508ff2736745ee06ebfe1bcee4efa703578c36365f828c5a43b7e300f4ab51edded9c275621c6995e8acf4837c2802aa68969a7ac6d5de122a 0x180f1c9039a105a230be9be9735b9092fbbb228e12544c5804274f14989bbe94c3cf3b54a0369b844f41bc8bb8e9b0859f7bf223e215dd3e07b7a8a3d18e539194d; P0 0x1216b1fb37267e496c02f3e71ae8ac5c656de5e85b657af77fea1d6d6aaf1800297f4b28b49173288111397355c1bd0ee439a4b19287ae6003a87769400796f50a4 0x183d60cb39a24561217b86e9b5ae87453af9d63dad8e5943cc36d7df08a0c9986a7cd1640ad109610cf1fa95f26bb7f37dadb89775fadf7d8e307d3870823971cd; P1 0x371594c1061695826647d9c7ec429266b8e8cba4fa25ad8052c1543c961d0512a0b6ba1047785d9b658063e706075424e3849555e86b4f006f3ccb49ff0a9b16a 0x9431b111c439c5d1912b051db38aacd4c4f2e15fd3026d36ad090f2e3686e3b4c1e488df5e9e556de82687b9c0e7d4b99275729c3402ea7defd45ac282c4b8be5; P0 0x2ae4bf30e714beb5c9d9f273d41cc68e0d95c3356765712bc81efc5a0b6b982a4e513541697a68abff948f14748e5ef370a11450623f98df10e1dddc54478c63 0x1d8d58c52613694e352c3f1a7b44a030ab3b668e71c01e2d6aea66712c5bd98a0730fd2c4bdb6d644faba0bda4eff6693d514c906fc3512351a7f955bce50e8073c; P1 0x51dfe3b5bdeb5de08334f0aadf0684e87ae6c1af66409ec4b892bae5d2f23e083c524da86af6a39eda942c2fed586d93c93431442c7e7b664ccfba9e2edaf412463 0x1817bd3ad657524b3889e340755a806c9376cbb7a8a9213f5d3ec31a0442f246f64eb0887a00f894244e2b61e1deb2c8642fc849af11d7d8090a3984d15861e2693; P0 0x1223ad74a516890d3543d2977dcb8677d55b5ac057addda3085fef594f9d08067f5019b031032bff08b28c64556127b32789f111dd94a8c0322b9e7e128b58d36bd 0xf4050ecf91ea225447911fe6067834fe5c9b2574eda625add45d05949faf5c3a036c5624110dd4b4c1b02181f4a18ee6b38235f3e8562805ed24e23735a9d12f26; P1 0x15ce6767fe4ac11455aeadc6f62dfcdeb8f551c0b8b646a35297e45c0e8d1908234fb2e6993f2a421689ee9f26e0af25a69f6b17cab1553477709225c86f63bb3d4 0x84e1102dafcff655a5a7d01e0c88e4e3fb5e001e78bae0b5e93d8fe3f0002d1bb218097201c3bd2bdc868087defacd0b016f6d4ab187adeeffc0fb7b45886ca0c0; P0 0x227c6f4647519fdc4e03c512b66415e0478672c9796bd020de987b62cb7207e3cc4b6abd9af3a917ac64db74abcbf5c39223423442d1b84a409e8508bfc5a58523 0xa290614f0553ff83c82ca6d37f6b132cc20bd938276d6af0f49149bfa6de523ccd9b27936b972be1a70ea0666ccfd283c8b7380419adde2df0cbfc923cc961523; P1 0x9ad892e070f1ec7846c77eea5a392adecedf99c77ad6ea69aa0fe30f2111f978b41388f5a835f5a632c83b1b2d475650f5ce8df63c265809abc50e622075f847 0x47fb24cf16abf3507806130b38743566a28c01df0eb94f796482b5ea40a6cf840e8e68f5aa25de96a99ba5dffd58ca11246fbfab55a1b7f793e7a1e41dccbe40a2; P0 0xa1ea26608fa5e05e5716cd714f12f07e1a4f5f1f8388f679a7c14e2a6df143fb205cb276909d1c6eb32e422f76a4aba44d03cac252b6adb04d98063102121503d 0x8cc9049b55be308e14f0876b2e5ae6f3728edd86db554c77c983ebdfb0b50d9adadd9bf57cf1728c8036a11615e68dbfe5b87d14641a7da92d6b3f5c2a51eab6c1; P1 0x7422b85332aed40bccd69219d1c8eb624c233b223a7aeb5bb2de06c2b23843cba4f53af352df79ae47292afebc774d890e9f509df369cce78114c71df849a6f48a 0x4f9a21cf85e7735ec1e9e3216b7219bca3acc6e7a969ac5ce9fb8c895e611fb93ab3768125196ac6fadee5145661be3d09c5195894201f058ffb80487e8187ed0d; P0 0xc603ed563648e3563e27bf8d3e76f2626e5cbe482dfd1a8c5c6b4e555d5277351ad68e756b26b7b9911509f08abd5cb853fe305b3478c5fc71a1f1d32e99071fc 0x116272315197a65ba76d05d8ffc4efda81586e14f28ef22eab11ca48e6f3ff7e08493ce5381ba044649715e54f679c1df23e8d023be9ad93071ddce0b11e2c784a5; P1 0x1c55589444cdb8e68f1f1553dd876a30bdfd3f6582f4ef0c3269025ccf06a6f4326a3df3413815c708b06828d53ef3a8df4471ce558511dba817fcbe907ddaa2d88 0x1605e6ed29f5fda4294f56f858ca43a33bdccf0eb356fbd3a4129e37f4bd0c302db18bc0a8dc9348c645b7f409724a89c3cfef412f3a65ea411b8cff1de516be493; P0 0xf281e9cc6477286dcf49ec9771f0c52a5c317bee01dfd468e9dd3c36f9a1181f5b676727d357130c210c78df83070eebfc34372e5147c013b5d116108bedb5b5a7 0xb938e9fc3d9b653ed461e3bd56c03f911c8adb9ccb12b098b89df1dbc1dc507fd055d8b87df55c0d46e23756043d23140bcf320d7f73fbe2a93c32b99dd2ade210; P1 0xc904f640a7e4037efa424748f63ff318a54eb2873368b657c97e46f159b97f53cb755383ce1744ceedaa046146febdb18b7514acde2c55c43f90d8aa35a6073c68 0x3b0c9efdd1bd24e5ef332ffb9f746c94e1baa8f8f91f26e58cd8ea20cca5e5d6b5e2ab3f5b3278e5918630c48be1292359b32520f7bd97ccad31c5180e59c7ff68; P0 0x6cf68f4249b91a593869453b372266ecd502f2b4cf4426a60172baf6946e551e436a1600234b97d99f13dc3d16a337788530a8ace3a0c152b92bfedff2c3fb716 0x186df8ddcce793dd178f1516908053f07451f3eabb8c0e11edd3d8329047d1469b11a6aff78036e0b8e7cb919cc4fe75b7cd4c90bfcb4d076f3ea1009348ec01156; P1 0x37f34db2fd799263586ab78f33e2daa12d3d0234e0511226e0142a0ef8119edf333bff2eb811120a391f687b2ba04146700db065453e13844b9936c93c56f7e062e 0x16f24e2865bdd3cee10908abbcd9f8aa89175a787a0da747eb4c9e71c47d68803b28e5c1154717401f13c1b8a6e412ef4a7fe48d35b19e5f61b2836c295ae03a0da; P0 0x107456366dccfd5d1514d1eb4c4faf4b76fcdeda61a492cca47df8a5f690bb315cb8644e3a3480b1c084a642e0dad2ee36c75e633c203a833af1bb92565296df42b 0x113dcf7ca5ba6e258be62b3e041880f20b41ba1ea4739ef3008ec1c44ee1aaf10bfe682dc98b629fc4d7a50c28cff1d507b55ddd12d7d00d8b89dfdb9deab9b2dcf; P1 0x1bde6b8a35ed544e8bdc5b3dbf1812a43fb4bd9ffa1b70e2732b82c42556ef1c0013f4a3b3f3676c0cd9624f39af0902c2696ecb1ba6e0fa0d70891d473cd4aee5d 0x16e83abda1105d523caba2c72110000906c9ae7a29b0c4e031302fb0dc9b513c29560dbf49b6fc3a1b2674213d1c114a92ab19a05a29bda735d7127bf48ede03680; P0 0x1065e618e6e9b92f4a20e34ed33ca5b101f9d7982342a82299102fec4b512cc082b148f34c0948b9fef5bcdc75796d9811e30b728048d68fc04e816f4b9887eeaee 0x6de5eb0e7556fd383c3b1c8e18ae2a63c617631b4a2ea3464e13bb9d91ca8cf6698cdcf4ab84b2d435c66b14acc6fd80edcba0639ede6de72dbf918601f4192aee; P1 0x46c464fd076c54427f237eba9326c1a55bd989defd44025ae6a926695dbccee82f7389f13bddb8a0e6ae2ca2cc2630b9a5e01ab639a48a8540cb47ae75f51abcbb 0x1310d43cce7aa06cb6e319e8f9987e910cf41a7642b93d5b4e9226d4167da35beb1781cc2ef66f104b487811771867e6ea0a78bcaeb5954b2a499c61cf742279c87; P0 0xb5c04e1f1a63c85d3ab482f902dcb0a0c8c1e65ecc1b9a5e65953bb9ae878a9b6f93eb53971d2743a51b0054664333590e8b6343b761f86f61aaccca4ee20a90ce 0xf20d64d3d2f1e281ca8bd3507a0f623af331482fd97e87c6bfb4a064f9e2402a45cb522e54a85d584c214d426597f9e738707a01222fd16c028d66d1a78ee15fff; P1 0x1574bfcfdd0105d5128722b1ae46b4e03c7e363dec69824e58a4c39e5eea9f7a7182d7766198c10de05874801334ff1e52062358d5d10349839ebc9d1709b35db4d 0x1230b01829d43729580ad03ec444f67fc9779b8617ceed520040f2ddaec490da9c5422d4698dc2e70f84bb78bf38fa3ffb4bf2d688c50b3fd1b44ff0e40eded9b50; P0 0xa57102f4096191152db1de79085ca48115487898aa1cb967d828dda79bb0a9b2488e6e6a802df431c341de54df97303564c16a8136dd0796a435d82266c5230ced 0xc73ab72888b6c22e85fc74a8b8e32eb0dd19b84ccae49ee226af34d2dc1119d65cba4853a4e87e6312040ab7b4428558624bb071b9c88ddddff0245881d57d05ed; P1 0xe8928154c8ef95deebb1a1f9200fe98a5875bcd58c0408670bc2c9c73f8e5871f23099818d6433630fecbd15c1a7fba9005ee0de3e39e9958dafd64bb8421fbdd5 0x1557b917be3a0ee2a828195946e605c0f1a596d7295f951a7f677a67441b772f5afa107fc2b336d5f02b8180f65f5954c624e4764857d7a14ee3a22e107c4df1610; P0 0xe3c1369c9612857978af389eaa67553e1406768392872b0dc224a35f165854897e5b6f97dd2cc1e4f073c6990eb44ac91878633a0ff3473e6c60e6ef9cbb618cd6 0x1b80510ea9b979328f62c249097b5c008a0d16f98d03fd6a100aa8751bda8a664812c2b5517770ea646e3d8c48602afc62ef92d9ac995dacdb9fd88a0acad284dd6; P1 0x46e7a1f6031b1ec5a77d09a86d4274f330050a5e1271991b717e45604c7115415dae659e3a36fe596731043539e4469b0e25084f10e62162f856fd57c731a3b74fe 0x3a293832fd5c15fa900e4cf635b2fba39e349d34dc128f4f465ee96bf0ccc63689bd523f25faf266e93f5004f090b375882babd92119efb62f0bb041c60ddac1aa; P0 0x69b5a0d13bc9d3a67eefc75e6957a260169c82790cfe79d0fa5d319ee76f5bbac0913614959cff82a4b3b8385127dbf361ec30f61e4f5315a0f4c9aa781cfcb89 0x8fcb076a836ac50c38a3864df263b47d160d56a7f306c27b4d1a2ba5df5fb313bf3b953e4a5c25544969b696b4eba4cce7c9e02aec5c7c0b777a8874392dd9906d; P1 0x7926acf4a2ef0c75a2f936324f670a4b4bf5306d2e0ce1c610914b765668bd1ca243a03c96b240262d902a9cf98277e4b43dc7e470ae93f9bebadeb30c2db1b43c 0x1294ed3478a2233f6aef1fb485ee424f8fc342a4014561c7477c422f44d9ad648f90d66dba3bf1332e4c5a59dc60a3890e36d2256e1ff0cbd2c9c409dafa2801f77; P0 0xaca3ff40b63d458e2bb5382963b4b8fd6c5639aca6fb4629c99afc18fc65290efddd56cb07a19c97e6b9999186c5f8d03aeff4527d8110b11acffaf9f3cc2fd922 0xc4e6622414c7158910a4ac1abf2c9f5e7275795a1ce83b4a21347c872d8b881179ea18a22c737f6f4a93cff4c0d67838b288886b2bd7b7843c4c645c97e30de273; P1 0xe32a60699d68bd8c46e9275d4d9328b0c0d8b23668f245b1c777658a8be88a9af17c8cbc46b525657874bb127eddba787929bfc34a8a3c9c4792ddb1e07594b007 0xa3897a921e58ce7cebfd0952d436fca47f0cd4b5aa012fb805d87ddc77096c9df557abadebe4d0a2e58df6cce4ca046ec5dfc588d77e7a49d603f5f5e8a38c6f02; P0 0x343c2df53edc9529adf62aa8d912c91c6edd77abfc5a3503700548bfa1e64d964249ccc2a1a4e56cf176519f243f009b3e26f2b29fd76ce1ad322ea688e12ffd0f 0x1c3efa987f410a85b083d8773ee192a290644822ff501f117c0e066cde34a9238127faf3212faef94ea8b1a4aa0272b6c0eb01ae56732c30edf5b81d08f0782b913; P1 0x4acc1778c8319c91a9e5189927c63a2e1ba91b7c9f595fb4ecf15395190a991f2904b827d361fbf104cc64fb0eef0f0e222b1ab2ba412e7826b18098684196f6e14 0x5706210021e543bd24078fe71ee8230949c1c9d9ab9c559256a62ae8cd7d18ebcaf6e19085969ea654df167c15a4fc9168a1af1026f1e2c408a081aad0aeb8d44f; P0 0xeca9549d3a639c36da7401e6744e2f2824f25e2e3ebf744032bb4c258de78e3dbd30b21719626b7c6cf75518b67ca3d231c4547b3813d417fcedeee2751fd9c3e 0x6538dda74b07627b6f304d63c7bba02637bd46859ac8e7971e11e8ab1f2e46d365173d4819f2c6ba8188a7389cc679217b33693d037e107042640ea09497a08c9f; P1 0x3c08e14b977661b5501889b2de84b22db4acd08540753a523b7896b32ff055658c783f6940ca268c959d9c26dc19045caf474fb24ff17085a6bc4989a289dd07eb 0xaf12c940cbe62a8aa4a9b77861c3cf7e56ba5680c29cfae4ff2b3d354c0c89816abd772e56cb52b6b65dccfa0f831cb3783fe6a1b658dbb1369a1df0e57bd7e82e; P0 0x3bdd5843c10c158ec6748180c97286fd3f43401983509f4305284af557828074c272bf388c7cb68db7744b4a82695110b7e4373e4b9f456763bcd922694e54f44d 0x2515cf30c17280510faeea816a1455f14edfb7dba8d27d0dd307afd83b68bee8b51889528a5e084a21225d414d2369d9c01a348e1fdbcbdef94ec9f3e9522c5c91; P1 0x80ef79f9c68140126b149671755117a878b7dd781d51dc6c055d059fac157b53c21f68bf97b8842e70a160376d2f7a0b0a0d9c249cf8a895f2ca5dd044fe9d671 0x159683793c99dd64678539974b515e976678bf19d80443b19e857f74b5d68816233fed7d388f6c28730a252fdcb945807cb1a2ec4e22c83bdbf085087d0d5db74d4; P0 0xe905081cc4c808dd82d957fb44cbaa7dbe8f2e510de52c32f87f1f818be6595f759f2e8bf8aa855e1c39f2f683cf978506e5a230a0a663a6d15f7547a2b13b2826 0xb89e399c8b098c0c893103b0073db5ac83a4f84a976c954b0ca64f6e74253ad9df117610beebf5c3a817f34d290d6d39f8ae698cea77464f895071a4ac9143f7b6; P1 0xc7b5beea4b18a61e564d28ec1253abcf1507aa3614350c78d9eb156bce326aae7d5e1a5e138a978b667e2b9cef590420c4fe50ee6e7f24accffb6a2e5685c9907c 0x1a4a7027d9934c2b214f4992f76d723a36a3ddca8f5b17903be9387290c2fbfd65a43056f5634c59bb8a0524159e6c2cd201ae8028b9d1e10318da85fdd4a7b0a8; P0 0x1599a36902f4c9ad912ad79cc364c4af979ea3de0f7e1a393bb89bddf9fcac99b22794bbc3375503900199a310a817da6500714d873fdefda25c68d2c67a12e19 0xeb6bddc5840d07acb9f2ca92fbbd046dbc3a6e3f0b9aea6380ca9b4e9c828433534175ce2833b09ae1b8fb420c11d804c74656e7e38912bd26c58e73aa9cb89c59; P1 0x144bed1e9a580640dcacbff81b701c3e72d2facd225b4158a7df7299dc81e40aa06fc0731bb33ae101d4348ba3480fc7533f4952416e26a102861030834ddfa8f93 0xa1a5febf6cefcde07ba0336909e436ff2355a811a582b2e326994ed7d8e5c493e0194d438cb2f75bac404426c906576f59c87021894729b53ecc0267d9a4405466; P0 0x33091b0793a43cb1abcc5ee71cf81f8899ef193dc785ad1e29b58843d8a5e8a8a785cf9e4d91ca90c4c6b817796645bec0f7e0833766ba87d9ad9f2aebd3df97a1 0x197585da6138db17309980b839041ab576da3c4db87d72fe7430f86dbacfcc62367b474ee7f6d8af97711331c99d58aeb636b275506313597f93192d024d2b2b045; P1 0x3cc3f2469e1ea1a6423a92719c7c0e153016838386c8640391c4b3f42b4fd2f53a7d02547d8d1a38b3b9fd5d12b76e7e5a12ab4464487ac5d794a1b76119e820238 0x14ecaea65204ea6169a301977d2bf1e8c614030287a532b978e4b963573fd0db849a9c24d22c38c9198f58a789e300a3699c801169141b507149e89820a067ada03; P0 0xdaeb0e3b4f409e41afe27be0ddccde6374e8ca999b8d22d1c4a87e39790ebea54347a69230cb8e0363854fe678922695271a525bfaafd9ea6e50854388ad3782ca 0x1dd575aff4b17d2df0cb5a20c96c5b835f76277200d1665ce08d6019fd5139b2f161e41796004c61e5dcc0b26b7b1639f9f993a481b09fee878a2e954f155bc9ed3; P1 0x53715fa5f838e7a1bf516199c86259419004b2faffa7d4200b45791765cb3f374fbcd06ea7bd1be7853a98e32505965c2d975b159e84f9d985eb46ee897570e0dad 0x302349319efd1b5b257a8446bb21a9b5f516cc43521b97bad516115123bc36e92e4b3578ccbbd167ba27153c3a2c1b8bd745d1b14a97d3c43622edd1beaa617368; P0 0x486a027da0edce1211b06b140993738df4fab7573180d7b4624e4fd602b4790cbb71d533b5352e9e7576371da181e467de60951fca064efe3628bb197c417f481 0x109393e71118858d7b36a6b8949e8f514920f3a02280bd84bcb2bdf2036742534c65772564fab8222cc13be501b6697c6bd3f5626df53cb1b0f299862568cee8ec1; P1 0x19c2b581c6dd1939efc27c8a7d40c9cde7b0b0cd4e702fc6d0d43ac4e61aeb92835a7879e0f47827be3be49600066084306aa591ca882be7d07c6fe15e5842b2d3e 0x6ef367e0324c11fb1f685d471c3cc24bccb02d596398f9337eaeed00caee2f195127747a12dadc9b4edbadc8be7c90cacf5d8c539a4b4168b60a7e3c078f35c1; P0 0x180b0a59847f84579b9a5453f4cc8132f750268c384dd3fd33bd9d288586f5acb140c6113d536fe5132415d1dd498dcc946721cdc36013bf44f474b4ef9385 0x19ae17f676563604e01421c3bca49ebdde9e3b8fa4519bcf773071f7524a31dde56c93f2108a543050be9756f011b1b799a70cf0d65d4306c06e29d47fa5bd70f06; P1 0x3dd329c1495df6e46bb3ba3d864bb36975f256e3f598dc3134378b8a6bfa84ac9e1a684cbc61b38b6180b95353aeb340ece0e1ef4ec989fd587e3ee35b28aed2817 0xa576875fe2dbbf5a991d7259a64734484f6214f9da3ab047a4713d9a7fd9eae9fe5a5c55f20edffd75e1f3fea4a247eca6e6fe508ace10b2a755f604e40dce4483; P0 0x357900b1573556368e6bb4e24bea62e1e76ea41b2a55299954f377a228c77ceec59c4cddc1d50917c05fa8dee588103cfb5805de148fa8f486199eafc1d093c820 0x3920ad12b8736f638d40b35299231786ad64cfc0b579ffabbed8dc85e385690bb270859b549511797694aedacd98224555828c1bc5a5f9f0f1cdaf6a4173bda329; P1 0x131f59dd17bdbcb0fb34b8abf0e63d6cfd2b6463b508571c7f280c861d83dda0c3be1c5a9c611b5e2c851bd176ddeddcd9aff5750f28ef80692d52f9b98326edd1 0xee436077e4712e9cbbaec616de6a3dceb88cb8f9f105d418b77969ca1824bf01b486d034f0ff0984788e53e231ddba5c230b2f21e82e00657c72b92d62fcbca384; P0 0x6ee0ac8d47ef14b27185f2ac91de7d937051654cff6148ac63219c6bd4a011eef46576852f78dc0a1cd8977155326874e437aa8e93701856c9f5c207537921bf80 0x1e1d607f593e3520aefe68d7c6461007db1d3f635442449653d657a870085e4e1cdfad21bb426defef3ed45d2872230d23559a446475a122410a5f78d4feb731b90; P1 0x55058fb4736d63e07a537e9e46a1ac6ac8725217aa6b0562d5054139a224ae4dbd8339ecbe81f5d91538dcdd2185062c738112c0cd67074c565fabad80aaf6ecefd 0x1822745b49308d6151bc48fe91bd4c83baa7e88c3b2dc5be16d64dcb107fea3b0c765fd147835347d7923b93387ad7d691b9aa9dc6c46d42f4a4c3759bf2275e1fd; P0 0x1233d3a1d6db324755f39665812977a98d6f0e20d7ecb9587c135c8b9792085d85a5b513773e9df1139582d85f584587683a3b6d87b87bcfdb468afeb0e5ab7c611 0x12af18ec3bd85bfabfa9a996cf78d30f666d7ae034c8c5aa914552aa9812e179d8fef81c1ad39abdc004670ec6901e81a37bcb0e3308ff3cb78231292e3e7787a1a; P1 0x20ba2e674ba15edf6e1e9f9c5c23140af0a79ee80b33da21d73068109323e7f7ebb4199ae85773e343da34cb2480fac79f21b20309d40f91a6189103f632a7e0b28 0x1b5b0cb689d757ad54d92fd0666216574cfe502e118ace0bfcab44191b5e5a240ca9c7dab461d07c05e0b40111d2818686d34d5ac0fedb4ef3b94b2c4e006546b14; P0 0x1762a8845bd8555aee09ef16e849fafebd4674f73e5a065caf8d400ac19d3263f436b9125d192e32436e3b975d403ece85a3d55745d4bc09cef74db32b59ea5134e 0x38ee06472dd17ecb42a0475e6fc86a860ac8ca864bf91eed4326c2d3f2ee660778fbdc6ad3829ce730be324aa83419af8e0d86513cd8fb8717d4854691008eccde; P1 0x12fd801638d264696d26c6b0554916f6861825ae7c23d700403c2de15944286f75f80e5ca6d1ef52c931870a94ab5dbf34cf33e39dbd03a1bd27b33f9666085d3b 0x1a4264c4d05cd8f0ef1bc1b90cef086c48b6ef4d2e24d896503981478d88ab3416f0538c67e5dbcb598116a3747b5df3e48446781b89d509fca0120a10224b80ec7; P0 0x158c6d80bbc530487062dccbaba6db66fc11b487634d35d1813dea6fe4f0cd643d61816ff203a41c8633425886a1a4172c7e5a08e24635ca920525b8dea0e6efbec 0x4dc296308fff4dadec039f9e6112242d5f518c59e7a4ff9ad92454b27a13b6d81581ad94b7f212a430f824980a496a5d715b1d15c6f4a57d81acd65f8345595a9d; P1 0x236df361c8822872c904130e24ddb82099ab6727300e0aef91545633ace43af6f09fe4a2efd3981e7dbe74152694fd6d9ee4efac94e44ab6f57adf1ee34a6e1f13 0x1f4b12f3c9bd5c31f0608f0bf132ab96c3b0e9e845659b0a7fd086c616f1102e7c81a090c84d4ea5a19f4d7cbbe2a533622f2e488b43f0bf6ff6c8c50794246bee; P0 0x1e9a24d938da0e7ad749756279faac6acf75a7045b686391a70e87a55188800ba63db1669f4ba9c91e79a5f98ba599da88e96d7f6f4cffb01cc2633b3a1fee555 0x37dfa3db57e2964e323765fb81a2af949390eb4c0d8ff9c92a0992ecbd870244042b86f51ed7abf204aa18ef26a245fcf3042564f3bbe4d9f555da88b15a6fb699; P1 0x124ac9aab12b4aca3b97bc2d9f74d831e83b7eee3e271e0b8bc82d1443dbc180414656713fefe4b3ae139436716ebb366a64cf71a5fd3aa8a963266f7511f306f0 0x1bef2eab8d24ea164cb035f68261e229583cf6a8382d7b1069ee5a9402481c83f24a003c29e937c191ff2dbfcb6fc23fcb7823e589c6046b2a3c831d5955eb6bd43; P0 0x18629a82e4cb6fe75896477e2b09ce53f5c10c2787023a668fd86c2044f77ec86487e35100f4815d9c7c6860e1dd9636756df0b57fac3e7bb682e1910df9154f684 0x2a6416af99ddf93dc4396a8f832de33234773d3f7729a1d328190ce03f7b9c3a4ce68b6138c8151722747d29c91c1163a4561486de19cf9b2acc73944c6c84f60d; P1 0xa877ddd06878b254c28e493e3becc6b48cdf20001e4710a543fddddcce891073c44db1a422a54ca63e0af6e73f2546831663ab550c1cdbb5816cb1e4f82c4e427 0x12d06d677c2450874eadb7648c867f766c68b093b45d607445511e56a1aee34e96177e89e5361c8bd05b118159476c306ba779d0141122ebdd07a29db746873da22; P0 0xb0fc8a42300ff0f877c08f9c5bdd22837159b0cb5f9f6189c97fc877843f82df2fc788a055121f4b52306972bfc3070de6efabf9a4c46686c7b8e521788f572560 0x1cee68aeccd7744cdbd2df867ac6f03b8f6671512ca62d9259d8d09fabeb857559d0972f6f20e4a44f83f10e71c79191431d4c9429fb7ef72b10a9b51f1e3c111e4; P1 0x4e7876392f3bfc2d16b3e235c2df9a095be8588bb7739484fb41342084d3923c7a6f5e888eb1f982eabf252b6504fc3cea903c5e820c2f513b26e6f0de4d563b35b 0x150a7a22e44e8249d9fabba120ae0feb2ed413d211fef729749b8b1ff8350b29319cb49ed91af494f9d6cbcf3348f9315d01170e1eb41aa032b3918d9bfce7bec8b; P0 0xdd5c3bbf39feef48168cf3967c87ed39833e0c653055e13df5149b83ba0102e4392ee1dfbf86fbe183c4054e203285bc3f14397d5683986f2a9440acc2caa28b63 0x1492e320b1ec9c9b14bb5cd80ea3ef206964435cb1db993cc091d1814401f8a2989630b45cc79d339bbd09901a3ae6b7b4adaf2fde47e81ca32aecaf6d9a6c51edc; P1 0x27aeba771e85f1a2902378105ef0f10eb3892e3dba62bad005a1f334b0d6db29f745de6f4efa289de2b019172f58f841500ba230a465312037d80df52e95f392da8 0x15b505ff81db93a5e44ce94a44aaac9ff8fee6028ea39b13046fa10e056c8f864b3a2287108f809fbcefe77b2233f868484176a230f11f63d11c4d3693ad62a14d8; P0 0xeb997eb35fd067448e8cc983d868591c6054eb33db897556264ff6a217f5f23bc7cc9dab1e66395fc14da06aee244e21b9989cf35fe01bff5342cdb41e5a818558 0xf6535b863f3268ce87076bac8ac6c7403ab8f87c12cda6af5aebad26f97f9a854e0c88d4c0d8bb56e0b55e3aaee6ef89d6cf320fedd8f07e80a232b7c25313fb98; P1 0x16386768fb8d7dd2968785332396e6203c4ea42a1d8a84bde3cd479d71b547446f44653f3559a1f38398d2605d06a1011e8d5cf63b22f4d55f9466010fecba8c5a5 0xfb1a6a2191de5d7f2bdeeb44f1c9d1c7d017b25850f0b5ef2b0d2c6aeeaf5dc70c5b1189dec7098268ebd395fc62e921689828a845dc1c6b830157dc3a6b230465; P0 0x7b26676bc76dbedab8dd8e67a06c704748c137a3ba35b981046e3f325e32d0abcf14d21b68fbdb374906d98303c061d5d91173ab9ac01b900bf788b1b4a6d43c16 0x8cc900826685d76eaaba1198684ce17675f61db9539734d49f50e12ae27e5cac35d37738a04854fab59a25135a3fd3fa147e9a407c1bb60ab8a67091ef48858bef; P1 0x7422b190a35b76566f4200363211ba1f76deba70e93649d369482ec323961dfab176ee74be3698db7f80f33bd97962bd5763dbde3467c9eb3f8221e6cd04a191a2 0xbb6120e84bdf39dd15a6545271a2101e35cd229b64df2601a8070515bb2f8aac77025d85ed5adcec0c2e9e26d7680bf3eeb166e2319dd6285c04c426b66d1bcd05; P0 0x44938576a98e41ba205c0df548fcd8fa3f04956d9708b29c507a309a9435dbc5782ee75a10be19c73259df1ab78c0dce8f315e9ff895f41069fd533684ddfd6e96 0xd2ce1c7ca5f5f06073257fb7a3d96ce1855464e0773ba653395345968f9543e574063876c59eeb25b0dc9e908e832241fb89fa008d98f7975fa7e0e53c033c70af; P1 0x1046233058a1522c221d7a0f755100a6a5b5ad9009a2d432262ff5b55b31997b41ea4fe4d51e6079e0016605db4277ba46fbee20f7c0a780539f1e3689d85c1cbbe 0xa4e4ef86d6ec8b71a9a631b1c15c9a6fad228871c37c04156eb09c6552a64cc053b24969e9b3a6009f49d503cc27beb827753edc27b27512cf708c8b70dea692a1; P0 0x351b0fd025d57a2ab221d494ce2623130016f5ee3628be0998aa592418f1fe8fc8573a929183d606c8622e2fe9b2d824e700508b4cee6c3685784fe22b2e7a96d5 0x18876d9490ae8c621d4534168fe2f247c19a98c6033ea53a251527fc4e5118b842339e5f85fee3611927569e6c4ed8afe08b63dbf87e9cf04ed2f0857bce742a016; P1 0x3868248eb15c1c20e27d21a2ea646895fd2f5a3ada280bc30d15d694ab3329d9fb30844837a475a6fa88c21b58fd2408541a530f7b55b8ddf4b24fb00783fd7d93d 0xfe02f4624406f518eba146ba8501217377761e4d9a47ffe6e8f94d024ab0f3e16f1d4f3888615f2538b42871cf547421b8b9f30b37e1c1bc10afd528242a325ee9; P0 0x7e04ee7ddce92aef594b48c25b13baa7e1b24977ca81f9ed7819986f652627bd4bd3eaedb404bff91a41131e605a28a36e3588d79c13b7f649f54853bd605f87b8 0x28fe76f3d00ba4450d6be727f1af6f0b5d1813b257f13b69a6037dfa840d724d1d7e623858e84e0806aeaae023b346bba33abf115f46e6734a15ca66530a9377c9; P1 0x9d8c32aae2739a65bbf2deecfd4ad479467f97fe0834f125887aa571710868eba490c528f87fa7d008955d1e46f4f118074db8efbd9d83c0442762f0a01cdc6ee 0xde50b090e48793d85c9d9c101e24c9e80d4e6bc45c6af80b95889f2896a1315eaab3b294868cf083d4b391a322afdcd177661d16f2f1093bd86a9d46f778753a61; P0 0x608805d51058c2b1fbd66b8a87667f18f141b25f40324249961c12d8ac93719ed09ae347d6dc47304aae8d4d70ad4289b566ea7a5b199cec7a706152a5fae07357 0xe31d0eb21ab5b6a0ae7c41d86684c33190bddb4036a576f62c2f6c950ca4d1ae23c423c190ac336ee62cb7e7f1a5d5b2515347286e34213f66262d223d54da8c18; P1 0x12e3ad10a48d868d20bf3464dfaaa1da149e3281bf0914328eecd7922a1dc4d59acbe16fde5d723a284ebeef3dd8181e1a422588676033f53db21bfaf930d38aebb 0x1ec717c46bfac15af303cb90dda3961deb2bee1ebce3c15caeeed76ea2a345ec7473759eca8ef206853d7e4f3bc44e4ec5ccd72e462f520dc330f878d6afdd7757b; P0 0x1d9a233ff71c3a3404e58e5bd305dbcadce47ddc4455b9a5bce6ebfac06df8cfde0c8d06a2051d66ae3ee0a9287cb41651aa0204fb890f9c291a087d93f52564ea5 0x1505ec125f747c7ca9771444b11189c20e513d37d1a52455ee2e409d4959d25f609039f63cf978edd8a80ac89f84539c112b2869de3d233faec7bcc34a6fad9f7be; P1 0x296f54d211c146e7940c10887b361dfa7d8bae7ed952700cb338f3795248487847ce291d46a5eb325d1c120aa8775729f3aaf9d9023340b99324f42e841dd9e4700 0x1215504f972f6ab79ea8e6c6d3b642747e8cadabc7aa518e47cca72a6566e6dd8cb52fc0e4b0aa3d7cc0365c34546d592e8d57aa6ca686bbaf50f15abd8f532da0c; P0 0xa38088bbc1a802cfd7b0aa23f992d19f4e50d9a0d0f118cd5136b0828b5bb34c4129b357194c8953d0c9bb3aa58dbbbc1ce43c65569b66e437270aa0f15c683984 0x1b768421c12dddde39962065a0c16bbb44c6b2e981903b101b8d0a792dc90137c1b08b4a58f6b70135618f2d40d0c1ac1cce360177eeb4d6e84f4f8fca63ad0aa14; P1 0x46b521bcb18e220201df8feb06e4c76393d55429b2b405a5576164bc493f3e078a06b4ceb87d2eead18712c86edce535559bc70b695772b84bacfe1caafeab36060 0x1de356027c7b627a8ebe5fffe84d7fcee079029766c999a08a32ad167deeecdc720bcb754d260e0fdea87f9d6e9fc4a418f0e321c388de37b4b2d0745f18f2f1510; P0 0x1bea5af1ac13164bf27f6076ff0502fc128fdaf1c7bcc527e76ba2cd226c642de70ca5da3a05814ee6744b2b81d2871ab1299a3c0e023dd5c4fc16992f854e1b95c 0x60ba552ec76dcee7e87fc531046efe42c541b25417dd12135a7c055dfa04910fc2d0eef1984776d31015b3bb06fcb09f00e9aec8014b990c8d05f7d48f27d5a5c; P1 0x36d26b4476d65f96ae60e81b2663ac450825d32ea59857ccf10f5d2691b0587600dc84e549374c877ed6a322e31317eabf820a8b43ab9e733a42ff0a0c765e90 0x77445ab8a85af203c50580437581266a51a31e3ea37c919bbfd04786500d8e3f242c0563925d7161d52851a1c3e352543856a7926235a1a6160e70b6eff5acd1c0; P0 0x1bc84f4bff622c713b64e908f99a9757277a91bff5293c9bc4f1f4d1c616178c9187cf7fced229372bec2b1e08c8c8a80a3f0713ba8db45894baf67016c34d054d 0x8f399d3f6d0d27b437fea6c475d396a38a18defcbd0f6703ed3500aab6316cbcb1dd919fd127f4c5425478c199879c46883e1266710e7d55fba1a752bac928154d; P1 0x78321ff663ff2c8803a8565e43ba464ee133ec77f06c2e502093bf30a49a3051be3763b366dfa9fb2e82c793e3eee3ba997c8c1a10c03954ae6cce615f4483f286 0x1bced494aa6ba5014e7ede5caac74ee98bdca7d85b4674ae49b347db9aca0388df14115574e9fc52bc0deed2d5aaa0a64e31cb7883f96653460280d203800051e01; P0 0x182a3f915ddc551cdee9781b0eb22fd043ef36eb9a31d6c6a0ca8317532122c85b0c323df12ae078470a59da5c945e6b3e0bd13e46aab087dc3cb76fee908ed8e1e 0x1e14567a8c8740672a224cb8dea2de1c3c786a9a303faf4f375f51791fc2b396b8d07a0bd2f9077634bc839d2600c7639dbe50c0db65990caa714e5f73387bca1f; P1 0x54d28d385f255f708fa4bd08498fd0939a619d949784b35a897d7277736be94f2520d693619128bd711eab3867855218ee98eee7a3b5f91c0d7a30acb1a1cdb6e 0x1e91af4a0b22a4f13ef588663e2bac5f72ed76d3170da921465299f9520dc07a9619df70e5bc6de8f027206a0be76117aae050f05b2579ae037756205355639aab1; P0 0x1d33bfeb241864599080642c34b8e773f81f6a60888aa72f40e5db026db538807944c5834da68f91baebf23e456261bb0233f29e407ea22224a14cbe3243576baae 0xef938989f9440146a44da9a98c89fc3d66a9c230973006efe8b0677a826642ad512a82027ec71fb1c9c0613a4425b70e9e06996dac4a5514ff9fe6461a9618490f; P1 0x1504f37c24ca9507457290efdc1802620e6e009d827da7a719fea914c1d3fd0b7805312ae3b10cf976d7815fd303c5d1d7cb32f1d42d570c9693c7f2550fb518a18 0x3c66c31357365ce4f0296830256c14a8d1bc0bd7acdb01656f7a68d46968aa7ed053d6a164cd9a8bcf38a75426962d800d6f8816b808f5b6c34e05ae370e4e36bb; P0 0x7202a588c78b9981c27ac2fa0270dcd7506512960fd7a16a8e3f88a6b23d3b54feafb72599373e98114616d3eb80f84ced1158246413b6d465b30ebe1b0b5ef1c 0x51752cea24a927ff9e0e25e78d58c6d6eb5219e94a090565bd95a1b365a8a22aa06b40dbd6bf98ed0de88438d448aaf9aa1207beb7858fcdd9eb4d4a1d8a5d5bb5; P1 0x26e10a1561a6d10742dca45c114937679d34557400d633e1befc2882e507cdfa10db45a23d1a6a2f670c0771fcee9ff7b01c79f5f5590c3eb337b14ed943a5988b 0x1ac8fc826fd747cb103c42745f0fe5765069b89bcb931a2a5d82a3545a57b09ec01983e3cae047b88cf7b71f7b61428f2dacf4fea4ce6e37d0b7933ea9ff6ba2276; P0 0x166b88b01cbc4cd84b759932e3c13db903b0b50a31e9d1205f6ff67c5923f70b32d641c69afeb71fcc2b48520cde2c9b879ab10b529936909bb11a6d74b9388966c 0x13a8d239d759ffb279bf86f9bd01ab914b55391e4a297d436f40393dfc431fd2b453b8c2a57dd03c5f8eb6595bf3284fa9e676766423c54519d08ab9f7073a424d0; P1 0x243bdcdc5c76eb00896caa65ad754bb1e8a8b06a7e44d8f760befb484d2da3fd5f8dff3ffc918512c3ac2fbd874aaf989646d06283669dce9e4d14ec9a210858328 0x1713783271437acb31596b91670bccaf45561eb99065e13b52523581dff8f30e3a308f0f8ca41b3ce1c5a183f7a30b226b376288b46c784212937b532983fe6fe28; P0 0x10a408a1023221a384f3f370b59690231f476eff3385e7f90b0e1d40aea38601d6c363082d487068c86622428095872283ca668379ef8ba9e3aa9f4e377222ed6d6 0x10b7d357727f3cb3e3eeedff1dec226860c39a4bc8fe12c7ec89bb83adcc607a709f8fc9a7b042331378ff8ea16a7c2dd538ca7c13483dc8656c0dd47c7e623d16; P1 0x1a33da025b64d2a0e26a7f9a69e8e5b956b5d4799506973b2a309d1da58c1a074670e89948a29bbe0fb78cab63ba149c3af2e83c14ad9e1bdc1e2bbf5e3bb62ed 0x13b10454af586b88ef338bd9fccfc5200a3f8750a098d95ab7e046e4ef72ca1556d5446adecef53f13376f61a3f2758deff9177b24e5a2411f836cc216355fddc99; P0 0xc1e085c79a2cdcaa2ca377d3c0d9af0482f80abb10aaed01a87d1debe4fb35080ef12ea1f9b49f2fbe5b426eeb211b65c5e15843dfafc9d0c3dde36b6650e6f343 0xf1ac1f633da59e593e54a5c5574580c3b0cdfbda48be427d6d5ec959a6ef2200e92ce3e51cf946ef94c7ad0bc76cd2156e471ec65ac4ec73930fd60bf7af6846b4; P1 0x156384a3c90e8c7237cda58e294b3a9a6a421f901d73f90a30cf72db338698c53748e636917876055c48873deb5c1afa8482ebbc233315ab968b86c1fd0aa2820a5 0x5ae9e85eb5b9c573eb45867456cc50b68b1d132d19df0530b1965f3450946bd6ece1b8bac4d13abee032fa698fa90f48d3d3cc9eb3a47393935baf0743837cec55; P0 0x1024a68db38c9bb4ccdf3d561e0a9d5033785ef105b5a277b97e7ec6766742c435b8d29c3e7cb45ffe9edf9540ed5403464104ff85b5a75fde045474fd28fe54e1 0xe15ac99196feb3f7af1c19ab68e29d3024251837b03df1785d9de6bbbe1b5e986d8bdf26eddcfe157285dcd591b92b9375903862cc58e3bf4a7a63e64ff383291a; P1 0x1299111c666bfc0046c3d331f9461965371d3f8309635d5877618b00cc72d5f0e33b17bbc35dec2bfc78aa92ddad7cf8f3eaca2b0cc1cb2dfc52a03cd3143ac1883 0x1db83e9191db15d11bf95e749c7022fc69c95df55b5fec503694657422f58b5616906fcbe4126b7e84857395ed76a36cc6651b277f655e9e45081a8d9049d4c1c6f; P0 0x1b9a1637dcc11a6b4645040f2510c06289f17299120e9cf0e47bf63429a71affe79de26ee41ec1c21a2432449863740b2644f4f86e5e48a119628d8f0515b582e37 0x6e63984862bccc5a5271f90890a98836ac17bac21bf575a677ae25a3c8efecb4973837ba04a9d832f3648930b4848a2f8750ffb2cd735d8a43abc4734a6668a658; P1 0x47669c6c0322fb09577d83da6f88632b9b52e929072fe8c825135d16cdd77cfb55535ab7db9ecc303e682ce338ca160973f7a1565da01e43c1c7e5ba6d34599627 0x1cc25efde4bcf3415fc6d3fd4c752c72caca3fbb4799ce6b3d9e834ee61b616f83b92571b21540a260ade2274fd6718de1b0faac2031641be3ec4e6190e4f1c50e7; P0 0x19d8c2dd30bb9afd4434b0454894623b8073a8d45f183e31ed9421552ce198d64a7a3e03cca79b2847240321db60ac0e94b981edb07f54a461b53c5ccdbbfc04fb7 0x430d4226a4cfb67dd81b5682cf8311e20013314ae1a83748d3a7cbadd4867f2cabd22de4a3aa450bba6d6e84f227180c2995266c4609b3a902b23241301dd98028; P1 0x1a57e9f804ee1e2646a62bcd11adc10ba6050e339545408ca83afd26ba2a77b1ac11c81c52c72092bb038fc714883c07c95916711b61e2e3e5b422a590d31a04fb 0x403fb359990c87b63c6845ba4257c643356dc8656e2c410b189a2935fe823e2f2fdec2549fb641a9567224dfde9df92e7930c87849b43a1be9bb60c20b8f0217bb; P0 0x80ff4c3482301b49af2871a0d0bc0969473666df18ac5161bb4d36b6d8133c74e7211b9196b9679359729d6f10d8352929cc8367352a5f4dd5d55b9c11373c789 0x1a8a1f27011a7261947cc524c5ebbfe3831f2e1da6296639c5f87688fca59e2476dce958072ae863bbc117d0220f908cdd28cf6f6aecce06ec5219e865a5e92ea22; P1 0x420854649198bef51b1b2d2818ba5e9b73ff1841133771013d5885eef91c05288bd6c13286928b299010ed381591110d7d94abf8063c057d35a2114d7129c019858 0x2cea56a7003cd003c250e91f15d47fba5fb99ae6b08e5afb823c8be1b7ab92e0376805273dd36a8f14fef0f875a3695103ec05614730208e30c106278d32c01de4; P0 0x3f0b225f75afbe3de6282fa74a797acdabbcd5eb4ad69fa5381dd7af251e3c79f75c52b45f95d208831756dd35c9138a0de936b7ca2331303295d29150c46bd6a 0x1b7e3ae0488c9e4c89b37b332455dc962a1fe07e8188a8d6999e403309f88d5e0eacdbe47007e51eb7dcec1fd42bd0a0728c4c1443a8ba799edd2d92a16f5c4307a; P1 0x46dcdfdfa6f35c61823c4ed69782e37a20041451365a2bb827e2be60c018e152eb5d581170ce0c4b92c683053cfd56d5bc377e6cae16d310f8d330ecbd1d46c830e 0x48be1c481f623faa6b2fe7c943710636767f0c4e1e1dac5b54fb0d78b02a0edd41870ca755ab22b3cfbd9a8ec22876bf32766f5d35737a03bad43f34252c66717a; P0 0xa55be8b47eada6ac3260af60f4d8a1f6ab8e0a97c610488d396b858ba7d5dc696a59e494ab8c63dfd806ddc34812389b35a6c8ab8db5970c8a804f7337a72eb36 0x36c794e9622b1d00b1f269daa87348d270934be57848533e18955bd9fe840579bc4170fc3293ff7a4128026fbe26fe72debb71e9dbd19bd7de0d7ab47809f7d95a; P1 0x119535a0f64f3c4d9db7550678a5da527338d03b9a4d6190fa778510449ca37def7ac2974b235e77ff02802235df962d3a656928e26fd7a80b4f9e14050eb2c83c 0x179f712d1aa9a1998828f3dd30518523293439a09152d68b2114edbb20f7fddae349b20c3ee82878152e0cb98966d6e4aa137c18425c7932c27e02728dd7753e328; P0 0x11704d1f16d399e3b20df0c51c01e468d9e01bb2fa1953dc68e276f08fe50d39cd70228f41e87ff3bc27a9bcf0c4b22c1837770eed7dfc93265e5c94d5418d62937 0xb3a5382e3742ae9fb671516cc0dc2737ef50771d3cd2b02cf765bc48c122d7cf823e036c620c0db5a54305c18bd8e9cec2ee5c6fe72c31468c916b19105e561f77; P1 0xbd18b2cb25c61b044af4ff56fb265fbdf130e2ff878afa5e20ff5b0e564638f75c45b2a762db70cf0b3a1849582abc4672bad8ab9c3661ccc62cc6824129953e77 0x15469fb68dda4e19ca94b11750efdd3bd2bf33739b1af71e997a771059e3c2bdd48fc8e200206c612c97958c7d3aa5ef5c2aa00594f6a442491be3a1d1ecd0b5a6a; P0 0xe254d7d75fd54b0fae3c70782b75c377a5ade47bab4ba432053aaeefa7d80a1b989b22b08b06c66f5f1fd518a3cc1fddfa0dc42b290ceed0a02f9a5be75ce6537b 0x3b484f46cd97580a200666fab6f205175abc7a27805575de06d1b1bee55d68242df2553aa009afe18aefd464256dac1c1a52df877432ace37c502c00e05f1075f; P1 0x14979d72fcb645460300a54438e2c51a7ac9d509f00bea018c6fd5a0940d98c2376011e61fbbb67ff1741b816833ed4a3a66b166ae6583acef88b0b2b29da2b5 0x186f9d02fc32529c501b34eb538bd0e026a10e5a181acbe0363bb15ddc018c5149bb4f2d9f4d24b24fb5e1dc4b679962f500678c0cdee89f4827ea8838877daa278; P0 0x12a8f0d0c16663fca91595f603fc0118b4507af86b138eb61ba8e0d4c9cfb7f2526d401259e49ef180ea2d1ba03ab460ee2bfbd079bfc6f8c661c3d1be3ff885ce7 0x854db0c0a7bccc1f0de5a7337012b37198e744fe658c1971aff14d60f69c0cadb93d8367b3a2bb3ded22c0b7d845a78bb53b90155ebd4ec892cc6d8928ab047527; P1 0x681eb9d9fa54d0f0095598af6768e27c4ded61a987adf99b1ac1637d71a08ca47ff3905fb0e5e5309fa8fab247b9e08a7b94a3600d0dfc8f0ef382aa10d60a001e 0xad644efe81cccc288a4b45eea5bf3bdcf995f451b423c3998d30be786db67fea2b40eb986e72dde8f0eb29cce193062759a5214c44c7b81e8ab03a9662c08803f1; P0 0x3ab85d08e55224067599d2d12c9f8713277fb7a9fd21a355a95701dc4e95bda5b45ecb06f109989df3a2f868b810303055320ebd152801d7d4198b9532893ae29e 0x9d240aa251d97f1808effbf726a985276761cd01940508cb8054fd05484becbb8129029711b7c2b88c18849bc2584f1149d3cc0a8b39d4b66ca04d53e4395a6b7f; P1 0x90afd72d21bb508fdda26f4ffcc5505bf469b1f71db4f4cbded56e981b68d6b21e77061ce54b8c1b6ea9f0cf6ad00cd0091f4e02f15f9e4f2fa319b1af3edfba03 0x1c3a85304a68436b8d16686dbc7d1dfbd18a59352b78b51ea77552462c8a5ce8850bed141ef0d4d0039dc1df5511b03348fb39dde92977c12e6692359c2302df506; P0 0x18e6d4197b9de35333027af454982ef4fa6025f30a5bd27c739b048517b00f9ada20c1a53dcfb684c85add7595a68e45f63e81a446a2a7d2f846a8f0a3e7e38814b 0xa671a50048b71b000d92cca8410699d8b17377d1e34c29f05fbba445ce1df2bfc2f16424372d7c550491870ce6ee1bda77971fa70c9b6dc6a95949d778ccd8fd6f; P1 0xa2535ea72c5a899907a9e8fea1dcc58b56263718d516abdf1fc757e0cc298ab61fb1699a07accc2dc98806a98450ab95dba054058735fcc0082fce3d63f87b230f 0x14956f66969258e2d74e9b8d55655f694a6b07ac7f2f4a9b655eee6e5eb4b898ad307bf183e2e57af1698cd84af9f5f51a08892b43a053130d8d0d1ff14a318e572; P0 0xd3d85172b621f713fb248e1da81a48b6e7eaaa9f4a88092601f04b424281a63f31882778530e1f6716fc7d8998535c1df3cd196d72fe914cfa804c0e450bc6b323 0xd5f8918fb1fc516601f78250ad9ed1f264ff521d5c2ceab5e2ba04e238c5534ddecb772f040bc16dc4f7cff9c2dd7451a1cdb33859df281f6fe155bab00acbd9e7; P1 0x10c435d5d330838e66b2194c218313ee67d66d604204cd9f557d28479f16fe7a10d7497556d7a5f55abcbb2af92bc35dbcc186488e605113bd1259268f382ad5481 0x141b9274576258a1f6bca1bd3d6f2c45ec494f399a425ef47bb0cdd2911a91fe440ec59ade75f262da84bf9e881439c07872be4d32eb25950389deff3df90279fd4; P0 0xca28ed32fd5a91be6249a641abd03294ea31041ed52f73143043dcc2fbaea2aa9312008d172876030bf987b8889631b10fbe386912b5a2c50d63ae4a6ddaabff5f 0x1de76972f5c168fd2922f766d359d09455f0d3ca255352f77808f98ba2e767aa16f45bdc67f805e6f9dde635491f8210c1cb04d4503f6d724bb8927cfb6710d06ef; P1 0x53d5e9d46df4113ecbea92cb4952181ccdeb248421dc4bcc8d2aaace4670767a68e2dde059f16d26b15cd4b9e6f685cdb963379f98cb51d46a504ed42cf30bde14c 0x69a05a4b7997cc09761bbfe18cd5cb2be209f5db529f5dfdd6f02053cdf4c7109245eb27080c159058874ca86caf9c8c44c042f47ebfc222d6ca5ddea548201aaf; P0 0x15ca774173f7d56f016fb9c86f098ae60feeb5a13912dad7414616384489a2fee328984090b1353bf7c4ed734f621fd11eac089919ea06566fb4b8d7874db99b40 0x1579ab06ac182e02433db5245e9337f55d9d92036ee0335e48e76333dc34af748fe8d6db4ff13d4468237d4a80aca21855318ea171cf5919440ffdad4266c419ee1; P1 0x2b3c7d35232d8bb07300d24bcbf765896e35ec766a9eb58414c95ad390b11f3d56d5471efdb9ed2b80fef449a144f876401276ad28c858f60a6165065d5a1aeeddf 0xb5c401e4867452d3fbca4766c3ab68a6cd49e1c5ca57dd1be26ab21194428d06b9c9fde0fafa9db16107fd2faba3ae1d6aef959fc41c80742d97222ad95c447322; P0 0x408760600608fa25a28e61eae8b535f772538f4cdee8cf322c4b9cd97117d8126f64be87aded9e704fd36273c71cf9399be5247427a623737b9cbe450f6ba0176a 0x12cc2878293547999fb013248e653ba2943e246795da4cc471aca6c34097a899f4eaeef1eaf64cb97072cbaacf6ca2f0e7d8e2998fe844c0a4450d9e1c13977a7ee; P1 0x21204c2218c68648960c1e3782f7672e868ad39c5e42659e6f237363166b6fadcab4586f3e8f0cc34f1dea1627e017bbebc235f5a02ff5e21cc0edfe5df9b549827 0x19e80551547961344fa6cae25f7749ab3a3486861327aa325d6476b6e0ac28dff45cce38b65f85b7faf6b6e797692a1e5101f63448ddf17d91e7cda1a943799bbf3; P0 0x14f91a9c3028c0fda6d30bf1c867fb89e81f6b4c570bbaa612a73469befa13c4ced1a5b1d62ed8041e0a73a44c6b781e2dbb97056bc6fa9935ef9fb2d55345f3204 0x58dd776879499fa47e0480c05e31bb0c0b38843bf904383286005a26549e0537718bfc11c4cd42ba87adf6560ffc3d7d411d25d00c150ba7560bd94561d0d21aad; P1 0x2e458286d0317b65e883fbc6961d3741d9f2ba470af1f6c7568afb3bb604b0741e33c856d5fbb4a44d41427523651a025c089edaf8bd3fba626721583e7b5af191 0x12ed6338c2c06bc05c8c17533456f15baae6799a247a42528d27da4788d22ab804de617d5ed1c4cf2e346b5842deeeddd1012ecdc83577c785e30ce0ae72f2dbc4c; P0 0xb31f0a6c784d52956e972c8a749a9989d9932aab6ea35f38720b4d509d6ab87cc4759057fa521acab44a501fa8ef1b73841426b0fcb1b57f27cc22289c2a3ef63d 0x18b3c72fbc1c577e14b4021df53cb556cafaa783cd00c5f569952f5cd3def05de242234f4e5ffaa570b85177b914c27e4ef919578fc87aafba51663bd13cf76accd; P1 0x3934d65a8826f170047ba60b5bb4eba3e0e601bfeb830ee1544eb202daf4945659e09b28d2baf329d12a72e4425aa1334e8503e018e9a767d8ccba9b7a36f6ab8b5 0x1efa0f4e8805ffae4210f56d32a38c2b473ec2062fe2786b1260d22201b89ab95e7eac532fa421c8b7f5bcb946b536d1c27f050e715c0a4106280042853464b0d30; P0 0x1dfc7ec2716afd60bdcce30294d67359a36018a982551c2891e6c594cf0d79d19106a65a8c94b68921b3dbe78e5d199aee0a1895e20a37313783ee734db523e2377 0x12e93449ef01620cb4de70fa33981e44352f7bff3d4fd7e236f00110fc8f46b2a2acbefa44996b1257e417ac95a9ace795f36063ce14b4e8ccec47de3324d0c0c77; P1 0x2186fafee4f1121837cc5e9fe3dcde9972debcb2a7bfde21b86bbd3fd287d3fcf36eeeeca8c2e3e0d8f5f4f77fee08c91659dbfaeef69ebeb92e2b0635f86f40241 0xfb84e37f890436fa88a36eff529c36dc461830e38f09f27e4b1e6c44168da691c096444162778308eaebbbfc6ee6f3a2b082adcb7af4be603eb952dd05cc3e2034; P0 0x7b8eed8bbe2f7e5757a8e1013b17259f2f209189d1876a7aa7c426913ae5a2f7cc3d8c06ab2114ac2861c2345824ccad18f47bf14e10314b8e14c03f424e0945f2 0x108b55ab0f54bab7de84b43befd5a980f5de747f72e3581e123cfbd6079e59a7a39cd9274ca0dd367b455422c836b09eb660f0efabb3b5b89dabf0a5bb0cb465082; P1 0x19a91d149846bc03f6237f2d572863fc1e3c807fdcc430c1fd59c370afebc160ea2b28614ad351d76dac51a6271c9443ea7d2bfbe5c2b265073d54379a7db70c37d 0x146b57c1184cf9e05b5498e95a9c20151808b10344168570d1f702e04e6ed707bd33866f49e3e284347311dfd1e9dbf41c5ea7e9f25541cfd6105b69ae2c0ad4989; P0 0xd0795c52a593c6f403ac7c7079ce13f61e038a422b843cabaa2949e45b900df2cf815feec64e8808f8cd75ffdb3a5b14fbb10831ce778f1890c4a7a0e4b55d7fe6 0x1082479b733d181fcefcea27c94df8c10227764c7b808552a7004659ec1086db9cb0e51a6c1f28bf0b6918ddb2d1736b9626e05b48c6fd7f04fece6ae62ada6eb37; P1 0x198d0e05a786811ac1ff59536ac7eaf7c8b5bc816a8f9e32ab5418b7edb3603760acf84f6f50c119e4a7f431f464b1dbe07c48048dcb70302417b0190f64f5d93d2 0x2cfa43a0145d0bc4373ca4efe3cdc1eae3b8558e3bcd94cf925de8abad614e557e8fb926ce9c9bc5d3a7eec6dc1faf6e3c5bb1c00ac32021349b7f3384fbb3a545; P0 0x3f37df396c278444c27687dcd5bba4d8d4bb7180510d660f11a92e95439bdd635edf28d07624e462694377d66203e97687a2f4d23fcab1662570ea81d799fca8e 0x15fca73ad284b477d5b5d297cbead8fc1725dbfd914a672c3ecf6feae90f46e09f955138ef8512e895095f144c45b37e4cb01a4cfba2e9d8c27fc1a596b50cfcf27; P1 0x2d5232df7610a923e8905c42a4e56a17371dd0ac3c946b51aeb22047996f3856aed9823805277c23cf06ae3f865d68df38aabc44cdf303c3f41e67be56f6e39577f 0x190b16a8c5b0da60ab1b5317d9e59bce9bfac9e4614ae124414698cb177a6d433f3b7447b4fcb44260ddb1a46ed2b93debdae77e6bebcd908fea085db8884f9f52; P0 0x1399573f58f7c8c0e0578916ca66b25bc71ebb27ca6cb926c20c01098f3b028d48db0648f79214fdc0d74bb359c22aaac37fa6fa8cf11a77e510ee1b965ad4a83 0x85db28f679afa3aef165c8efa887e55e24aaa672d6dacd5594e7c97d86220a6d1ba50b2c896b280e2c456a85c2f6fa3e5951e26d57b79f916442fa2da43d7040c7; P1 0x68fc2e46d20bf8e0360a4bbcaf65ad3cd04d73b00f0f147e43697b51120c1a6d225dc2abedf96385bf5e5fc12932d9e74f98ae86540c2c13377ef5d8f4af831414 0x8a65b477caba57d4578e208cd94ec1e38de2f63e0ea849772aa63e21dd0414fa04bbed3990754022e615fe8e687318335078bc660e08c946779900c8236d0f6427; P0 0x2568e77c8627c56f309e9702d3191fa034bd430b3879bb80cc28724c1c5c661ed7fadaee449163dbcbfb0d7a2f3e91241c3e10cc30e350b38362c5b6871a79ac05 0x16bd64f2804ac11a36b5e26bad4fd18f3d81bcf2fd1f25dc1615ae4e6872efa62b3e6f74cf40d4ce7bf127b42c51603f10c9ee86cb15c76e8cb0dee2567343a29f6; P1 0x307a633d5e2f24441e4ac122d9acf6715733bd4990295047af74fc206bdfd817c1576636ff8b3de52aff56279ee5823ff53fbec4be1d87e38cb4278b4e2ff468d9b 0x50f2e0b663efb0fa42e76424b3141697e9221ee7ba8faf57be4b0b622342bf410bebf179743da925be72e24237a6ad1cb32fcc32c13bb9868deb745f87ee50b6c7; P0 0xccc596fce45384e5c3ffc24e97958e8db9513be29a87593f3823baab66af12a9acdf1cd49fe59093842fda0b0d1e94f5e59e16f844574f9fd6ec8a90043d9fb3c 0x1f8abc0f3762b1dc601efb19555d6a806665f9553091342d86fca67f309586a3687a78952f60b41649e7e923988ab07dcdb5b34cdfd75b2f8f78bc34e2f06b989ed; P1 0x5d4571876f3f3996f7ad089740703a4acdc4711f63b2a807705c899a4ae4ace4f71c5c55964af9f3af291c899d339f73b5fd75280819e9791fa4f643e190cdc570c 0x935cff9fe78a0a9aa9d10e03453af6350b3e805618475bce1fa4f1179bcfd16020d049bdf7fb154dc84e4926c7f022fafa13a8df241b94d9805f9d1bfa4968e747; P0 0x2a69f7ad2f0b7345d719ec2ce68e1a3fb73f9b876f1e6e572e301c70ba3d48b95991fb018fa4ef5b09fcf83725dcd4888d7d53c8562b54b97769d18d211f1ef43c 0x34deeaedfcfcc7573fca16f4837f84a4b3bbfda6f431e3a8f909db85d16ae9d48d3da7f56a728cc41c5d48e8ba7403558e3c13ce4ee6f304f95fa13cb057c029ed; P1 0x1060fa5378b21ab2878df10e4c5661371db9586bbb4e1521de45956935e004a58a4615b5bc53e6a57bf780074ae6795c8d54dc81731c685f3d64f8ef3c1f85843c 0x46977e83ec74a949acd5c0ba0dd1e38bbf65c56d3d94ec4a674bab00f3d640f6b925ef2368beed8294c87a8b50f9f6bd105b4ef84a678ba8a3d925af16209ed477; P0 0x9bb996b51bb6f7957efef310c734941c6bc7181eefdd97922a9046c92bc1b2c7b5c54c5197f5b24cf9e140dec1866de793a9b1c0effbd2c26553b577fa26c24cd 0x129806ff8e8792a74f0dfb6d171778988b6d76e86ee46a495a25b2b5192d992a135f9d10333ca6aaa651e4c0a91e81f9edd88daa5ab1387e04e4390a59c55a5741e; P1 0x20698e65f8ff11def2acb337fe850a537ea477066e504a9ecc75fac6b9823862faafc29d00056ff327b30be57c5fadcffd26b343bb2ff5ff160030b9ccdab265275 0x931e72f1c4118aca5317c376b022e157d237ba06d5856e89aca19e8e7098eb8b24806e3303239408213f2ee0624eea32632ad0e7d6a5e94896563e0c9e192bed01; P0 0x2a45fdd065b92839a0d3925ba2239fa07686b48f42e0bc3ea6a5ebadfbe2b6f7cf46f768d3d60f0c9084a36f2440e9c1ade5760f2e31b1d62a2414b1cccbf193f8 0x79a852a15e07df5cc7bd524cb807e832610e22efa738a2af9f70123adaf7a4647db4aba5641784c7bcc3cea8da5063115b8f580345726b0bd8cf7af2dc77b26df9; P1 0x56b8d32da607f226fb2ef0d2c23c9d01a7d078b0c35026f4b7f3c13ba3ce6491b50b304a2339c97e59d310dd3aac0475416d38ae9575adbd0bb54aeca1593384fd 0x16b68dcf7ae7534ef5c45f157117fa7840900ed9af4cc7f24bb39b30b8618f7843765c6e70fdf2c3a2294d83e4719ab3d730d4976f1421547da12f460592bb97990; P0 0x101f146cd585c636ab11a34ae0ba79115422b00c09656e92666d061ddb5cbdef2a2da27acf98b2ec6405d2bb980e0682fa0b3bdc8dc79aa8a4b380f8a4ad956548b 0xb63abf9ad1f185e7b45f39744d925c4185ba8746698046dcadc1c4e93224e5234ef088ceb2163fdea7f2bb87e55d4d3761975f0e0c5cffe20dbc29e5a2252fc58b; P1 0xc29360e1461c661caf0958e65729631d16ca4b3cf64d0110d897d7e44de2fd991af5d723549a6f87cd78f6810760a77d734a25fe16249f43726f983418383366e3 0x8e5c488d38e9ede689914b599b44a6ebb3c5725bd19892fd90e2cbc7cd93d9cdfe328b303de8aa994788ceebac32b192f1d29ef6963e469d06300d1e9269f134e; P0 0x279540e0729a14fd093c7d994e00e82afcf5c2934a2b402fc31db56af9e532edf40b0b4dc02a5e678755f36d412d7a28be0044fb21f7c618bfd2043ef6b2a3d9 0x8d95b0ef6a77803a4d494afbc16d369d5160fff01582246c472ed51ec8f295d9f1c40d7c86d40b5a3e95433808731b54273c819228193aaf2e24bc20cf1b0b4f9d; P1 0x75755aa6c26576fba7163586a8c6cf313453904264c57536cf7fbed14a900594a860820db7639771b4cd18d7a45562dcb9e247c23ff85bee7df437c779ffaf580c 0x12b66428916db00c1427d166987b2402f55b67795bd7803c99300ebdaa107f0755f81b9d00bd4399ee3f7d8744412885facaa94341b1881b5b3f127f10d2a702ae7; P0 0xaf140422a8f661bd38130152c54c5f5455c97cb4622c074739f53a1b1747c0915dc56a083e829c47c98e6395fa430284c82a0e8cf99c366d07c2cd344c9d7ec4a3 0x12ce79a32c92d4d9dba5b19be6eccbc8644480b4d05779596cdc8d528f16851860de178b68041e0be3787122924447c52d2195b2f4c3d6efb9a4a637cfbfacf6114; P1 0x212877466020f92ae2ee421b2df4eb928477188c5b93c1712d00098e3b529705626f9ba83017a21b6177236f9b057b80a88c72b6453efad802259f0d608a0857157 0x15722d00db7afa422aaa8c7c40f20cad729159e365accd4dbc9721fcb4339901cc7549d387036426ac1a0904677d25cb30b3d91eb1ccb9266dc55a1227c39fdee07; P0 0xe5f727205779dfdb0a709913b57feb3b5b35c09991eceac32b72ad10e0acb3703423f83bcb4956b574afbe8e31e7260b112caad9452913d55a2e79f1a0bc7d7bdf 0x472599338d65b2bfd9711ab93c5f2b44a7a70e8109afd0ef7a4bfc9aebdb01bc2c5d0331040eb12f58c386f8bc503e26c313e34bfcac975287e7a3744831a48010; P1 0x1da8d0c05b85eae9ef85f9c241a2bb7982a7f8b8a1683822524dc665dffeb770af1ccf7fa61ccd646381a843d76173818be09fe4bee67b9650dec880e02337f657 0x3f458a50b5be241cb47f6c270d1f09e8201cf7a4b0ebd323f04ce6c66a25e40cc7594ab59e78fbe054a1ca71fa5d2ad969c58110288ebe50c3da8d440f80e7f957; P0 0x7d1a67bc9d855d4578dfa5ff6581f1c6a8bbb83e6b1bfbbb6a1284776031926ce246d81b283c75d869839ae51d91bbcd4eed9e14ee800d9a852684a76bc9c31fa 0xadc42ba80cf093a715d84f78523d8cfb27d7509da64382ebcc15b09a2ef138888e5c5c9bd44b3d91c1f9a3837f8dfc08529889a37f591865cec0cc8633aa788d8b; P1 0xb0ec15fe036447e99614c0cbbdbd98463ddab3536dcd5729577f97be4a335ad0a2274e65e58054802502e425240263d211b9c9b988e8c6c0e22bf413b2a98aee1b 0x1f34d9528f6699550d401715e77d78f894f12c91c38b28015c0703b8203eea348e415a10b1e4a464f17f95d9206ca2f0be55515ef6ddf451dff21bace1d7f422a86; P0 0x1e6ebc58061164680e18d7fb1c9a4dad1b7c8a5a3caea57b175a59caf48299b1701d681e278b167bdd9ae12cd2d1f573aed29fe353d31766b03cdbed9faaa144d5d 0x15296e38945b041320bdc7f42b57ae7a377d2b941701d50d3b6d4ae6cf416c7dcc5e1ed32f40f0835c69a77114029a9aa30129f7e25d8c4f548b526dba1923c8b81; P1 0x29fbc2ea8e0afbada30cfc14e8f5807cd4bc320c9b8ff1057ab492850d9253f8e118a2be6541f8f447988ec431c1e6f73cb4d4ea550ec81f6364fb378f10c3a9152 0x854b410f6202aba90dd82df9d07a014d71bc59403185d6cd316083dfadeb3a6dfb836cebaa402c590d0b98f0bc7b921be86a592b547fe0b6265bb55c0989b29655; P0 0x22b3a3dc95b182501d395f5e3d031758d7d04d334249236bab785dfb6840a3a07c4f1953037cae34e0eb06f48608fdc49469725649c367cd1daca5768ede42fa00 0x60430ebb6a8db6d0a5b176fe7926dfe5296f224a7e6acba3de2bb5e1b0493f65bd5c1b5279e3e1ece889dbc22c3aa68ab711f084a0b65d3160383c2053ebeb239; P1 0x364b8aebea4ba439c74c176271ec997432a96e7749569ea23bf694acab3b16ae7b7d93b91333403de0c6f5c60afdfafeb543e873e4abac1e29ecd9f454089db1 0x1207f5418cdd6e0f913ce3b7e4378bbd76752b4b768c5641952b6ebe486b1ee0eb12f51eadcd46c2dcc6d6d85d700d97fd7c5006ec0acf35b26f9c5adc442168fc4; P0 0xa28f5e462dafff6ff290946cfe536cbb850c271cde06eca9c05d024d1d15b05e4f16583ec52f7472d605e983e08a87a4d16d5426c7b58fd1d0e07ba66dda0b42f7 0x9db9f5562278264e49c9865b0ae64ae2249cd64239300904abb8d158f25e33cd50f7636e5fa0b3ad8511e3aaf0ccfe2ac4da0746b85b204a2d2e0e56abf077d107; P1 0x91c46d003bd4c164cf8352b0d65e30c91d07f0e7baff63c949eb4c9e87452e9bcb13a014d8cb1e588c535238c9e594a81e3747bf72bcc1c33f04e5c7c4534fb65c 0xac768dd32247d8852a634eba863947c8d5f014f4a37aa469a958cd7e47b035bc2643f56bd3f90de91c50dc716d6ee4d7582033a592049c5c700e5a41d5b0db00ef; P0 0x3a17c2bd61a333899ba0a59cd67f6ab223262edcd4b923aae889d69c92fe9b16d8fd07bc7afe3e166331faf11d3c7261594d66615ec4eff8e9116d783c0d8566e9 0x138c440921a5b49d99a4d237ea2fea3ca634df29e54ad0a0cc29a45d79f06ec5f167da7cb76a00848e6292994a465dd484bceb11c09430b164eda9040954670460a; P1 0x23d2e6dc298606088cf9e02511370e62be53275b54823bf71568347c808fc4223eb520b1abf339016d740306bcc7a07860d74bddd13102d513cb993e62ac1e79bde 0x126028ebc63fc3bdb684fa95843ff1c61137ca13823a6081bfbafe2d2fcd29a3cf0e9678a2bd0c1b63fbed0679c36e7316e03c8b12858b2d315d29c43b73da4050a; P0 0xa8d4efefa017397ddb787d804787c11728d62eb17313f8894bd8d791c03640feedb96e02f44449b24fb066f1b670e15835cece3092d38ed4bfb8933df909c180ba 0x13de31e904aa8e9c53bf90d05c62522529ff56bb14def9949ebcff271669ab2c4d37620600d31e55f7f9b0e38f0bd3b8099f461fd686d0bc9fb4ebd41c242aae51e; P1 0x2501a64c8d8a94bff0f59aeb560cf06fe5f886d40e5da47f43e49a3bcfd9a33a4bed4d9c63b19d3651277474453520c52861e7966ce8d2ea6446ca5a015c6bc7691 0x595ad74f725a71ee981c86f829f578d947cd07b7eb18883ced278ede9bb62f05d762ba9aa6f68939ac1c662a5453de8f89b807282326ae3c69ddb4c9277970851d; P0 0xf9824f8ab3aeac5d9e6460b06f5979846d05331dbb289407a1ef0ba6fe574d7efca13e8ed262e1d9332cb3f0fad5a2b80e563a836970328602cecdeceab20ccb8 0x1f6b2f6bf243bcedfeba4851ae666af63bcbfdfd888b0ae9e48973c08ccfc8d62629e4eba4d9f88835981b6e54781cd9df7c1a6c0e6286001025aa086eed3b7f201; P1 0x5c8b38b3a8a9b4849db4440f4977930f16c4b2b17ffeb5d99766a0d25f4477a7815b7529660e65d93534a6a4e497c0c2134390b3068676aac156b2598d679222361 0x1b73eeb0acc427a12e8e7e38abca2c91ea4062ece4324c9ba8b18322252473cc511c3396f52b96dd8623b58e77473ea1f613a50c550b184abbfca4ce1b711bdcf64; P0 0x178d46ccadcc9e12b501f31cea397edb1927456a62e76e1c39aa074f3b2aebb9120b4b6ba96277940015712cbc7a5675da1eca32c88ca872c1f19bc7e91b8557bc7 0x10843b4da28b8d50698243886fa7f4fe69165f27a4f68c6840bea18d47af93b79519a8f45ce407145a58b8a168f9aef6318326843bab1a79f6e124389d0e2005ad7; P1 0x19931925f2ceb10ef9c1f0f1e8428acfc57614a0a6232d730e19b075696aea28897aa7ca21c3157cababeb6cea73b407104a89dc22a9b30331e63c5c49645cb43d5 0xbbe74e95eb26eb560750a5a62a4fb57312cc254c1c447a9cc5320274c79d7eafcfc80f14c56c0ce6c24256be4b3bdbe8e08f9ddbfe76145b48f95ad7e17a7ee588; P0 0x44f5dee6f81c7791d753ef1001e9174650022472dcdd6aca4364763620c3a866fa05e636518706d7041968477f4b720a319838643229130262c690e45ffead3a90 0xfefa052f5b363d42bc3ba1e0c3626d30e470698672203c02a52968aca39f31dfd13d7b29a2f0d37733bd794c85a9181292a52c419ba5c44cf86d67ff1c5e59d2d0; P1 0x17cefa1b42664febc390305e57657bba1f5d9cc75aad0cbd64bf1c5d056fac93ddf40ac04e887106d4963602531d599f6b033428c6b666cf135bfadf68fe46384d9 0xcc043aeb9b7758f3ef5f3b6a76977873bda1079300794dfef0dd622ca96abab36893e8cc82e94cb8b86f9a8c304935d586e9969758e9ba9cef3301b20eeb113fd9; P0 0x514b5efcb2595664367a6babaed374b24347631b7e213db80bf52c63d6e57c4dc55da65f4ca2b3eeee6ffccfd7578f59574dcbad0bfe9107b3a6b0eae6bafe200c 0xdff6ae8ea747d6f757bc73bb72425dbdb998a05f332a2e3b7cee5e8acc40305cd481c9d25295148a31e5aaa7fd0cf3c6c3552eded2898a2c3726e85704abbca5fd; P1 0x125e78ab8b4ee52339328ae2438cf1dfadded361d015645412f35bf19ec065ad6dd7665d7c98e388a242d23c4e014218167c4f6d8fddcdf4107cda745ff01156c09 0x17a3e04b0b5f0ff46e0145c8e8a4d98d8a7673c237a7a8072f381fd13eb0c41016325fe928b3b8a7f9762dfbff0a138a8f8d969cc96b09c7d35cf1d6a03a0bdc024; P0 0x1176d9a700f7ce921945c47c030558a2eb4a313b7422d0f1e4a58298a7e70014e8911d248b9a9004b223d0ed504472e20738b0e19b612b41b493cb51dea33454a08 0xad344d520533762d58303fc2f34ab6b0f8672bf8c6d5f7a04233ad932f2caaf2bf1728a55df925b312b237c609a345ab374de378a6a9751b13495b2b9478a34f18; P1 0xafc798c8898e2a0e60aa9c4279083157bf0993341e4072ad57bcbeb4daed32fd97427f19d6ee20e04674aa42e9c00c518b205e7cd45adc5fc12b6dd6f12bf2376d 0x1bb1d8ae40935510ff6d1d7b6caf2a169db42b748a1b10c7248becc5092abff1a7240ec2ad755cdfad44d886620a94fa46b1a181bbd6ec521faa35ae92e1ef1ae2d; P0 0x17f7fa10cfd71a0d7c04548ba96e48aa0eb081d521c4ce32cf2773204f488d28fba60337bd766683f3a3b3559cbd3b969b525cc357e87ad3469db9e76898a8e7503 0x368ea777988f4df0f947db5df9c5f2ed0836aec6765082d7f1e68380b84dc4d400172311650ed4a1b624ab1a546fafb67507526add881980acb2e881b17dc9a8ec; P1 0x1170bd36ffe26f296c7e4e734066bc5651a224b2a52f8c6ab681469c345e3ac270ddbfbe04e08f10a2a9574f3eb1bc27287b353566ebb1640aa41b1d83621f9d7e 0x1d87974bba24936f24acc80fcf0772eb63a865d3a0212abff7a8d859e3a77876e6e1d44fcade9927f493345d8a0f90305505762bddaa8acb426f81311fee04b6a2e; P0 0x1b4000c09ba83fc361e3fb49a2510888f7403cd5ec5b721d7e890720a12624b82343f585f143382a8f8dc4658f8c9f3721a61acf1f7f732f499ee81381b663e49e1 0x139b49e5191c1e601fd9e5cb0e3cb48399dbd5ee867ec56b70ae3e3f6598c6c21e4e66e5c1e0aa28f41372a3f4f49b0c810685acc6128626ab8af9a176b493c6a25; P1 0x240a0bfdbb88eda87d4dfb1a39c0cb6ad4b87a7a11e89157b1abb0ea91d11d85597dd691a77de3900653f2c7de400d06a666ef8e59e582ffaa82bb1bc9edc18ee6e 0xdb739955aa6feb7996223c41d1258757224e4bf5305b6eafcc761c7d5a6f8a1b92877187da28b83d5f48532de37b0dca5dc3039aef5975240084d267c9f228ea79; P0 0x5e0f7e45d8350fe9feaeffdc7294750a1ac7fa6d80d2bfe76be8bcbd2fb356abffe2b470e5b6bcda8e436c76c7c2f38f3312f76ab389bc82e5e72e059a45fb0751 0xf60d23ade507c9847d19788c1ac2c9a2d1b352d02bfab938fa5a5b2ec3a10a2ad36580806fded9b0261469002be2457d8b055f0d22336827fe73b0f773268c7482; P1 0x162bbe1de4533db3edb9dc573d51a0f13fb49b4627ec643101a6d7fad60a8982d66067d207fd079dc843b4d79d479e440df16ae8e1718f54a07384ff575928ed17e 0x1e89436af512ff2bc5ded0d284ee8fadf12db979d01dcbf42eb3a909145e3a3f71c7d72d07b5e1e535fe4ec6f2ad59d4fe724daa0003eed81e247048ecc4431078a; P0 0x1d23ab325d5f58d9791cc88ffc4edd1e3a83710504fe6efdf6b02998c493d0c7ebf54a6a43653e2bfccda6ece7b464495abaad9eb385ca005b05152d0578b446b47 0x8c151af82f97a6d8105aa348724b7c5276dbf0dd6e21ae8022dfda9eab997e9ac16abdfeb5318be94f4b0cf1212f8026c40235f2530e2afbb23e4e01acbe5141ab; P1 0x72faa2db556b8b771cd900c28ff4d3959d55c6b0fa221e79e68ae374951cafb6819510555ae83b61d3e9724da57901bf72618a0a7e05575473e9ac1d42e782f68f 0xb07e8f697dd70ca086249f66a5759fc5a9732783af92e751fda9983f0e2c4accfa1a24728daa4101e182e8d26474ceeaaa67c084aed95ba9f739d8fe6840adcf3a; P0 0x3cd721e1449b4b8def6ae7dffcf64877c8c78655c53e026d346d2033a003b4d1a5e32adba6879a194e4f23509f94ca289c2ac7b4d853e08a3b6bdb377a97c7eaef 0x16de0d5d6bd2ec806bc19c85fc460f259e798fd765014ed64d5984b93c2903d89a47c15733de7864088b885b109c3efc39a138c85cffaa968a76820c3953eac413; P1 0x310605adbe2d244cae68fa60158dc0045c80175aafca4ea425bc916ffffa9a83b281e563f689074a29021ff37614afeb4ae6615a045cb3ec85e29affee7f3137a 0x145856900c7d3ceabcc73ce4f60034756821353b91349d12d65e1ded3c1dfe09a5329a2684f114f1c1761630e3857bf55959ac6e647a0a573ebc95b30aef8ae5fb5; P0 0xcef6011120a08860a79231372ab39aa38d6858b6f449ce2bb77a1f25d25c2d7493247197d4b40ce58def5a58fd9849155b4238cc1d9420f3815320e1ac4e4606ba 0x1833e6cc6e4e94a90bec66ff07bcdfabfafd826747aa7f0d4b220e814d689d5ecbd77146fa44486e8ac4e90e04f70f3cd5108d68e84d5bbfae9fa4f2bed3c19dcb3; P1 0x36ea8b22751fcf62c39135544bbd64da482a8074e9c70f6c73d51696481cf9fbff4bcf7b855b4c48bb500197f9a27dcb760bc0c02d28e101f8169b87e690c495e95 0x10dd18862c16f67f840284cbc5844e526f741b7790c85523edd102d701c451e5263968515e2eb6a97e5f97b9fc5adf33ec0c8212a3da6ffa829f38f34e54ff7ce10; P0 0x8e31020fc2368603420cfe4658d4f18914e6c1aca2d97ad87c7e5fc5a0684603658197fa2d29697c93c829ac2453bfd437284bf2ad93058f075ee1b4bbaaa28f44 0x137c1ba7c1df1c13119f8c0156cc22fdeab6700356ddcc873015e930bc4659361de4c3f278c4af7d04ac12db4cfb38f60959b12e272ba84e16cac9be68d3605044; P1 0x2397c688e6b9eb268615c12ba1e2b0485e683a9b3a793434452d7bb211d997b553ff17952a14c24e3ec8be3908dcf69b75f8ce8bc91f510c97dfae9dbf4aaa947 0xa571b460729b96819c617cf7824be4630054ec218813da6bbb38fc93ca1c69a2a622473402468ce43942286a55fb34bdd1e205c1ec2989d5a3ba1d1941212a5f77; P0 0x3575e28287fcc16f72d3e77065037d3f55f34c78f7381223a304a9e1e30a473d7dee1216264015f815764dfc376d49f486e7bf166b26037c6637efd985e34546a9 0x99eef51cb2aeb03da3b157b8abbeae64a49679bbfa2e814445fae36ef5bef7801c4d1bec00784b8cd476fcbfd615c0ccc8a12e6fe38fa3f34ee75b859407eacffa; P1 0x8ad7400d76717b0cf8cf68894d2cceaaa392882e8f758d2c470538a9dce99b311220b847bf9ac1e7cda51dce3eb25ff8b3f43ea1ce7dd28cb0aad429e39ab5576e 0x5da0c5b8140adf5e8661a14e4ff2842224607097956cf04665d1fc2aebb2c6229c9e01e6d765693cfb0d4373c8b6efd0a3a184ed0ee25834012d92ed5538b017da; P0 0x111f1a4fbeaee38bb86297a678ee0e4f047ab4f40ba5c96972b94f0defe180899b7a14bb8988a7905dce6df99646c57232759fba46b65a7668e72f35153e31e08d 0x17cde8f5c68798c40427565c8112152061bf101f03cf77fa0bb1dc80b0f7a830ef9b23cf90f4e888c384a359253f75b0042383752c18674aeaf7d7e33696c2ac631; P1 0x351f838a2f0119de19a270ccf3c45c8179b2d2ee2261bc9dbf2e36605c30fabb44958103d6be291cc1c95316f288ad1ee5a1353161a74f5105124eee85375c5d406 0xee80497e2955f4e0b281160f5de52887930fcce3697365d7c5c5da7c34ace112d5a8de5b4eaaa893be68046f748bdddd6b550a6f4413100dc8d6e9920662515429; P0 0x6f196478140f2d8334c62f323c1db9bd1f348972cda2b76bf8cc460f7779ad9f5c71dab494a7d6f98736ddbfdbfacdb3b47f3471ef89a80b130aecee3247e8aab9 0x142afc7e439a6520c21717adb7453f186c394ea55c0806968ca7b15b159469bc6ec666e419d9d1d4031444d8140532331227c313793d5b1ee304f2002640985994a; P1 0x2621e01538ab2bf530245889be919defcc619d30e48572f4f7283b29e8771722c7feb11c805c72c3343897018d098b71ba88772385482694512b107e6af1d51e68b 0xfd35bac5487a640b2850594325fb1a98f262a7bc80bc54576ea066c43513b801a7ed753e0f6bb2f2ef5853c67d8a1c43edd59136d8cd7c281141e6a39ea15a82b7; P0 0x7d399f38679a98e2fa48621f2253abed62f1aa6d14c2f104a1e3949e08867032bea4c29080f8be1b9cfe83cb9e2790b5d1b1eefa70055c44046a4beb9cf962880b 0x15945467f041627a295c59b5f40f1108528df9aadcffda4ed85cd4e458f3c1e4c9c65dbea272e74094a97aed0147c9193b337f044a66b10191b0d0147eb52cce6dc; P1 0x2ba81b0222358700a21926e839e44ca50cc6fde68134d410e806d528bc72aafb825df0bbd0e8be276d6ba4cd775ca8af4d26f6d931cb1a9df71edfdb45843c5809d 0x5e664fc4f269656024817556a31304a77c8205ee84d6366499e65babc3762d6a3c7a4e4b46211aeec29c65e846dd632a826ce2143410745e8ab4370bc15035a7cd; P0 0x1167a5bc25e8dbc84376151181bd626ae094fae634088939e43fa64884695bc30d6ebd9bd36d018856e12cde93a258af525926d6d3a8c04c048e1125f288629a8c 0x1b4f108b5be1a08bf540cfad433d91440478e9f2e3f262be08277488a0b8e5b9461fde0cb200b7e441063db6e342ca99c2972e87652201daed969b5b2b9141b4b5; P1 0x45ea8dceab106b39443972b63c926c752dc8e051e4beac2ac85744e023a252cb7d7dca2688c03a77adf4f70f79fe75bb1a47b100da484f5a4117e7e240a81c5ca 0x1be71894e410c3d906d700bf46daa9ee9b8ff236068885de8231905a27d49548cb0ba37771877c16d20fa90b31f6e1cb716064997966f6239155ded2544f2ecddb5; P0 0x18547e66395b0766e325a2bc80272c3700710630bec04b550af62c4ab5831ac27a25d68e8d3c8b35bc0fc111f27669eedcdef87a45e529391f024d81a09e32a94c4 0x9bbd2ba49890fcdb7ec6d01e47e8d3a29d2fb4c66b69ec61ea28cedb0e00d68c3725cd442509dfed44bc7cb88471048d43714b5a567c557014946ae2859ce496bd; P1 0x8e1dedf42dd6540989e038aaeb7fc8691efb8c98707ec5d813c09f2b193f2fd6732b5722b76437b337466691095a315daafb8c45dabac65231367a5604b484eab3 0x157ca5e23143afa082cbcfda289c5a41257dea2855f467c7f8523ae4e599de178959c0eb961e156949bc273465728349f93a97fde627b9e59cf4b7b7ea448c3014e; P0 0xe6d7f41d5917df5f2b1056d42f43c30b9590dcc54f1ea243b38d70e67c6479f6eab6026598cbeac8bfda388d51157902db098b86639554c444b13b5a2bbf6d2417 0x1d10c87701247a659347a104f09f83c0f6d75037bb3b5941bbac730a6b8b56d864481ce00b2585ff9628a33e2a07fea9616733ba21e9b076b9cea0013629c42d7db; P1 0x4f335c6f32ada180ed7ab384e55e1a8694d7c68205b0ee55b63636f8c3f335d7ef8ac2fe764adc5b2486428be0367d7837cb54875ea70af75a354fce712c56ef3c3 0x29b36f4dedbd6af74bac7216dbf38f069f5eec57812477be092cb46402ffb09e6c0d6c48a2284ce46f8d3a094d4ef95314cf1acdc33bbbd7ba34c8d1ab8637b3ce; P0 0x3657bb5e6c2e784f7c710257786682a2ebd302d9ac3c3c32717cbbccf3d759e6137ce2ddf3ac6f7e673350102be7fe1741dbe316e59a55f5c27533d461cc488b8 0x152cfd5b0f43dd1d7b7ac0c62f21bc8eaa1a1b22375cc73011037f8654dced46c3446b3d7083c0fdfcc36492609dc510020e5bec6ea8bd086dc51922ad48592427c; P1 0x2a09e3583d13d4041e59f2034912b0889a4afced84a49faeae99b779d9f4d7db2a5d1d8056408e4a9efc36ff29b61ba478b0eef40b45de19f1f27345c91aaed8d37 0xe455b193eaa456dcb0d67be8b35452cc0a88ec907b740ed698bbb9c67990e44ab4a3e12a7fdcbb0a799ef0632e3b7117350f26b95e9fa1ddf688c4aa9fe70a1167; P0 0x65d4607f70ae35e4acbaa0b5a891888bd5d07d8f9c884b3e9e8b5503ff5341bf8d438d24e727e3f43a00514fdf9e5faac474fe476d653c45a15cd0e58a64d92b20 0xaff07f49970daa5a19905e60b1f6215d234955147addab3c764bd2fa89f8a21b56de875552c782eccb3eb4a8b1309d78abd9de95f0403cca37a0aa7b49a4140291; P1 0xb56007f048af025478bf7a3f04e0f6bb7646e1be551d712ec439c158efe7a4af884b1474954b6a8a26dc440957fe8f34965b7c825b4c141a4ebe93fda567572669 0x16b3000ba1dd389c2c6aa86d0829e68c6d33f2310a716c013d04f021859e97d1f26bd0d97c9d46b6c12a5b93aad3b1c9db23d1644a0b8c239215d6f5249f362e8cc; P0 0x101a095880b30cfa8b1a7f2a8895126015307ba6e3ed4ddf9b42d601d31cb8a339a536ccb73d472e1a4d469614e9bc2d5ed1b3c76ba2921dce00a5b7a2e174c7075 0x81a875071ac4c545f1376482e27148d524bacc5aff96d81c7a067db84f375f52e71d3343ca7847f48ef742728142ab6a42ef011ded3ae71baa3633dab06f2ed305; P1 0x6280cf3073b3679c9e2b8d70ca85c3baffaefb5d099ea67b286871cf2524614848d69fff2f4078a325e44b3af1616f09b77e357dd6ccaa54cf5dd0be637d6f3e9d 0x2ac32db74954ebcddb209c15ca2e1a5c9078cfdebf406c440e999c7093589575c932455af06b4d10521ad6f1551bf36e089ba3619a95e554a45dfba9b00aa6f8e8; P0 0x3924fe768b9c3e04769c8725725f7af99c7ddfbffe6edc9f65a1c5914b8b6e95e6173c081559f849b34635f7fb6cfc1ccce840e5b2b7f7f41ecd1f206afa791e7 0x22fe397298d6ea995b2609f4192ae974d32ec96f96c4b2b48158d2aa4d2d4ad10e172f579cd6e0fbfaa4bc641c437d6130451e832ddb42c3e5ae6bf9608e89e427; P1 0x72cc594bb56ea39ad7c3077d17ec487eb4f04e286aa3f0692e541214c0c0acd187ba3d1a9b9050786c004d98cab0ba52ea20de9a111a8a89dfeff84a57052db4f 0x3ec2f56dff9be13e6da947e0cc4c047960a8237c699836900234060f6d03e90f5ec228cf938527679370b20cad558d2d93629286c6b04294792a24089338d5522; P0 0x7b181ad16e951efd369b50b0fd26302654e3b40b2ff4b8a40ab69bc8c669aff4bd79d81be0c2b2aef1b62c8f44bf6618cde15995030f2f5ec13dd420726814f 0x15497740f4fa704b18b0445be54ecc8cd199e5abb3d2cca2c03c63894f932584d8bd876688a184b9a663358766f752dc1142ba782ee7fa2671b5553999876ea19d3; P1 0x2a7b3f8d42f623ae563f9f36c1003c41b8410d65fdda8f480729772e9b25bf63548bddb9d2cbe2bf3e6643d697e0859b6642904dab9981d20410dc8f1e6e0a9118d 0x1432c690102c2ab517e5f0f35b37f685976a65c2a671e6f4a6ad1727228b382f41bf754aa690d2954b78aab6df366b2c7bca1453cdeb1b15373648b853c15adbd48; P0 0xcbfc8c56683101bf9f7e90088a622eedd1e6f4494a4fda3fe07ce9f831dfaa6e7c1ff0edec7cdb0f43c0b559cdcd08f1f0dc4f3e1764cdffb124edbb3674cc4f8a 0x14ff678ab24f5cace1e0f6b0e5f03d524178407e28d8251366c0d92c08bcd679ba924ebf46e8d4c3e77037ae72b9882582dc779771fbab9818da3113beda40fb3ca; P1 0x2955a7baa12cad1570ff38495a15765ba710e48882bbbb1a3e160305173e8922f56ebdf3073ef5c6b2f1733bfe5ebd1a5e1997da0796c7b3eee4b1c7840ba017f9d 0x12f284e21b500cd206dc1d9038fa9d8ece83ab1619825086a3c4816a529b544e628f0846f782997e87a1d3ffef895251055a08ed8e01f59ae3ee2dad640d9d1d1c9; P0 0xb38037a6266c8247c290f9cc957d11e71ffc4a117fe8ace3b4e6ba07b2c816703641d588c594719a63b62a3b8650fd4505a077c588f60499f0d01eafb38d3f49b4 0xc4ee0189da0350523afe4b848a7860b4c822a4c54597f2e67089702352210646dc2ec06b1a595827d870783f2eb0a6486fb0c566da56ef5fa56b6d01d2855b1985; P1 0xe33bf772eb3d36a1889a00ab4a4374111940ae5c89a04869fc2adfd0df0729fa4abf7da21ee3f1f66f6d4a78b8b3c628de4d49840abc6fc398a653bd8d1aca413a 0x22ad29cace659b1d48f0b7aefcea863e4d8cec24015217245e56da757b0e4ab95bb950d7c778b24858483de7a22d0f21581ebb2e31ead9b126b17bd0f72615fe85; P0 0x2593a1db0e044a72bb22fd6ec71be83f3636e848b6fb5065250e648f606d09be2d3dc914455039c13bcdd9d188df793ece009060403525719580933a604cc268b 0x830dd3680bfbf9bfad64f43e0c49ce0c84f5973e698c6390e785cae9c58759ff9ce4f348be5dda9eb6e95610a52f6e3aa4d59d46649803602a178b01bf3faa57a4; P1 0x64a2baa9751eaadaf5de29e5a8e8f43b5e5f26e31765421357e83a0454ab4e7ed4485dae6c8170b6da2721eebda1fdc343a92ebd9e245bdc37c1b0baa785d3c207 0xe3b3ad3ad4a24c86d0251aee8e2512a7133f807148a1399c6fdbf172f3ce5de293d0796a36d72b4865fa13e08b101fbc62f7316114482b85f5dc12c04139466537; P0 0x654411a9054adfcb3f9f7cd9b5922ea4579aa0b354cbdc61f0d89c5d71a7bfad573988fb76f0669cba76252855af3ebd628cb0a2753d63e9ea4a8f82cc936179d5 0x8a79bb14a6eb928e086b923be79cdaf4fbf554411a05eb967ce8153abfb008495475217a13a4afa0d319052beef1b81c95746af5cca7c5bd94c8add5289379eba6; P1 0x705b335ef94c6b547fa50904d38c8d6dfc94590fbc193572f08c59bc323bf25c3bec0c8d36854b0f513ee68e21a1d84fcf1ee9324b2ddf7a84045cdfe817cdee77 0x6bb7520d10dd1b6c0ca3b9146e958ffb1f2103c4988aefed0c9c9c4b0bdba94ad1bd13ad8711f0f676002b4c26aa43d36111c9492255d52cd87043b9bd7507d63; P0 0x16a960eeaa89a840f216a920dbf5a2980fb0ba53004a221d412dcf301c9eb9640ab642ac769ffe006200c8f711907ea6c728708a397876e5c3e9473570f6a7d8 0x11ac4f08a7b5e78a37f567a893393873ca09bbaed7ae48adb674f4d8c1e58ad3d4e29c63d3a195af7d47a9247ac35b22d32993e66a6a0798653a35d0b0256407c21; P1 0x1d481b62b74cb7b00f599124ce5fc7e4ac4f0986c3e70d722527867980efafd33959a4eb7c5179e109043e9b991f9270cd4fb8a82e5da3a5303c4fbd75682ed5000 0xe9305c92942565c320fa99b366444e08f5a466d67345a8c263d692661eb07b95195de5bd478d40fc7ff3f252f0b59181cda3845e95dd1f6447691e55cfecfd44c3; P0 0x6a3488d2d50ea7d5c65e0f94105de45a15f457aaa615a0c76468985d18ea208e06e804e8b5962f8243cd5b4aff888f57abd62e29c3594955f66879ea1b979e9c17 0x169c9c0542ef599eba9f58807591aad8c736083b08963f2783fe64c7d3dbab3f800a0da4abee92d91014f5e267a9eff3259e3280748ca9edc25c8d08cce1b84c8a0; P1 0x2feefef2381b131d8671c949b3f11d02aa71f0f14fc6cb376f3625fd8a9fb59534f98227fc83f975cba4568e6137c00b7ecd84b3901e769d7a8171609c3116dec6e 0x36d95164d3d2eafb7dc7d207605e6b4d96e33d9869532218a455cd15df50e0592a056cc8d3d7b6c3d4cd2541a2079a44f5f042fee455a3a244bb5b83d6d81d186e; P0 0x5e03368d016863b0e15d04868e83791cdb5376aab475da44d7c71e2c098a3130945f0efba6c52b270bf51390a952f13f1d01fe0aca54c7b2f183774f4ccf82d7a 0x11463a79c27b8676b017c5501414c3b6837966860148561a4033ad16b39f9e5576aebc2c0025d942873c8b5c996ed9dda81ccd8fadd4e1e697af881fd64f838fcbe; P1 0x1bf9a8c4da93e2c0a9cb2e438dc621f7edc6393e2256a78ac5ded43e2a5f0a556541d89e6976875ca2fef95d8c3c0f20142162b460089fa75afef9ec9c2c0b9286b 0x1302c0b94f180a854dfba656e945e0f7fd521c1ee3782ee8b46fed617ae2dafce5fa8d47a66c1c94e6cb2718634b6e6d775b5e3c2b28b04a1aef85d2e31c6acff77; P0 0xb4b4518adca55bb64fca81f761b5ae74368fe3a47bfca66610f67df2587da52773c42dae48c3f857ea3e67c0583865789e128ad23c9a8201608ce9c37c778b46a2 0xec9cc76507235117a249309fb65a506e7e57b4cb44a4345daa89282b3b99cefa4fa10c9d7e598fe2cd2e5d33f9058e02d52460958686286ae08d98631ed2618ff3; P1 0x1480a2778d5640e48eb3c9daa34d9a8296e8a623d08e7142c7e5636852b7ac2c39a6e0de16c302807e87623f7db82410358b2ad3dd38f6253ecda412c433bb87a0f 0x10805aa34553b03d73b805e49d7a8ca3b10af2b0c13633f3f88835d2a5e819bd18909663ddd80389ac35baa684fbf7527c1a7642eb9fd34383b0938d92a74fe9c0a; P0 0x8825d796037f4c0f974a5f0d2beb2d20016447658da9eacba69f6e679bd07a99509d52d418bf47e18479c4a31bc0d5a77efe4abc7cffc7e3de355bfd8ce6d0552d 0x14abed9b5bd52ea912d5393edea4d646212375fdbc47c73bb1087b245b061a244a6da2a67727225e538a4846eb1ae00b076ce365b72307e48396b47df77f9c48591; P1 0x280f8e358a6869bb573ec282c529203b9668115c025f1f5132c90bf0c986aae26508df97824454eb6ca0d7480f4be4244b99c848aa54661aa7cf25767f89da618d1 0xf6c55c852d145b09885dae076e517914a01a28d075db2c50d0256f1ac41d13306a9d0e9d7d98b2a58f8477d189a08469ee4345d5662bbffa4a72e5707536ce0d34; P0 0x76eff2fbbc853efc77a2c3176cd7471d3a023152210b87c47144ee0e0b8986c56a215e345db5c6e1a49de0856635c9335257540a6343f33e91c8af92ea18a71725 0x1c212e960b16990c7f82e76a7d172495959bf45162f418cc59fb51e270378e137df4a54b4fbe886d9cc33cc5211899c7ccd2ab33053585ec6a72758b7dd490569b5; P1 0x4a2e9bccc6119d8f69e74fbbefcd1b0fd8464d34cabc1b10ebb1481c70c55efd21c7befd90181cfe9982cf2ba9581671c5f5a48eb965b9263c9378a05613dfef6de 0xaab847c3f5e2597f13d1b091ed009442bdd8a19192f92a8c77dba320fc3170cd033c6edea919ff1ff2f3305ef183f1f81965d93aec8561fd0b5ec2221ad226e4c9; P0 0x38eca1fbc0302e50bed16bfac0c2ad49576c42a8bf1c3cfaed814edd0710b4fe5e44b1fa5b4343b1f7730bdae4dd292ab9d7ff19299877f42942d41caac2afc46b 0x956d3a00c6374597760e0aebc7fe4d8b6ed1fd2af999eb1cefb171c268cf527d11e2c712f947cd7eb7ee1ad37cf25a497a1bfcc0e629dd1d0750a7cec13ed26a3c; P1 0x82d47e2f04ce39d7d31d949f17b9ec6e8fab59a2036fca06c253e5170fce06c2459b42cd9bd7815b9ef6b7f8cd15acfc2d02821a625ea3e192d5984f0262e52753 0x44cd80e7d0ea760b94f2d2d3d3e8dc0e52a47a65735001945c8f5375caac5866e740a2f3188b1983264b06e4c8e704bd7526d18fda27433b1e676653a0f6766183; P0 0x93ee8b96d94e4862eac00a753437b307b5005f017ba0c0038bf67241e69ed179c0350cf42de7ace595f7aece4487b03a71c049b034bf2daf3197594bff08a8bd1 0x1ce6bbdd17461e25bd0b1335bf5f11b128c9330f70a3c8a0b832ebed40fffc202023f5c6cc566ce781eee07812dd787bb6f9c1d6752db1f8579fc5624a5be7314da; P1 0x4e4ed95b456db4c1594741832ace4af327ddcd8eb40d20b9e6be7fa57e220d48969f4cd704db0e92de679f1d31c337d9a1bd3766d6a1175b1279a1a44ba5f458fce 0x4421223aed52c6ee7e12cf03c296030891730a067ada45464a1fa0208961a5e66a5d53cd0214fd0660df5810549a77da84dd18a23dbdf0d1f7531ebd45ff1ecba; P0 0x910cf3c92ec6ed02f692dbd8f54051d581ef72fcfcf8a52a145677476657707b4e51858180f56b188d411410ab1e72be07c67814625f3c39fdfd399c926fa2d 0x957ce278c091704d44b0da862405325f862208741f072d8ef2aa2b2b7fe45a040c3214fd178fee08928571eba8873b0763d681757fd13a2237856d5fb66427151; P1 0x82efead31c3be9def072e7c137032bdf41c1f3ad5740e7dbab7a6a936ea377ffa3993904516d4aa45d77d72531923bd51b1fa620b9755a9c9cdc75999f568794 0x6feee46cf4de0b3581e86600b383b95cd2cb1a509cb6bb9d3f96321e70c1aad1b04ee7ea67425c63b770d7a65d9deb12b98ad8877e1d31c4d3933c7cbd231c5a77; P0 0x1878848201610e9023d6ef89a3d7a4f042854bc72612e89af98983da2b8fb2c2a5448f13fd3bc75ba80b305f7363be185f6eda79291102f00769576d354dd5bd7b 0x198f74f72d9a9e02ce185cf3617ff5119cf6734ce13260f29218c1d5a7085fdfe24f2cde6252298592e33f36f9c2fba64b01ebea8bddf971320cf710ccbc1d5a0cc; P1 0x3d3ffda3cbd2061589b45bdf254bfde01369d62bcab0be23bd5bf5cb788faf136faca57503659dd571773eb2d6b5801ad627fb214d3bc7f366c7f68f35c6eae0451 0x6a8c3540d72ccb4c5723cd54ff64c1fa8861fb6a9bcf0624f9fa67b7626fa71fecb57bd4a77f1a3ab3479b4a81c6d21d05e68a87ecf83fa65d1b9cca1e2014ec01; P0 0x162c3471fe182d6f358c3e620db871a0853611d243749d820fc79021f2f6a017de04e33b363b9d020b7eb232ed3257f32a64a775419be787d44cbef0208b255c5e 0x1326a76fd6725d94b03c270c583c026ee74489fe138595f2aa36bc91d41e47040af2fd239d728864b1b81f228eff21641a81b3856cf74b95e02b155111284df345f; P1 0x22624091ad19dbb18d0b21c33b8f2e50a5625afbe2a0e066af73a4648b00556e99396d6d0d41921ff34fbbd4a9340f111dda7aede28f5425b353bc3e4b0c7f5bbd7 0x1fc845105724fd905de47a6d162f64aaebc23327bf10a7a9d032ee226928320fa19e961e5f74ad66bd11e534b689573e9b8947b38782489288b76f2a89f889fed9a; P0 0x1f90eb2f8a2779d0da4dc7f83f94f3f79c8dcbc31e7f1b981699591d8fecd3ffd718610922255f490506d1de3582fdf2ba707e69286ecefa589c2042e98cea82a5f 0x807712d69bf8c9c63f0e7f6b68193b7f7abab10f97d05ff374a98ce6b1ba170b1c955de0de217dc92fb55da69842529311086b7a4d32534ee9d899c441707aab03; P1 0x60b2ef55b151035eef1053fc6d682c23880082a57cb7094acbd453b0b117938fc5c34ddd1c81104afa0195e5be539792f899c802050e8546c8a49644157bc9c619 0x19da2346ba87b4fc1ba4fa4a47c7f2a924f036fcb21428ef0e3984a8844857826e95a2a9c76399e33d9d26169e6ecfff97d5510aa138c51cdad821143e5af14cc34; P0 0x14e2a61f4e04d829031591cde9a70844cb23c2034c4a944daec8c9d8dd9054f8efad12aacc8f8f0af0d336c4939fa77d32bb2bdfea6470b81640feece1cb9888a12 0xbb43ab56d6d018fd48df6f98fea8c336b28ef306d7e3d09c151530554f428ec9f5d7b7a7aff3d9f907f9506454eca1c1e0408a11d5ad6f2f8b94accc045c8b74a2; P1 0xcd79e54dfff060cd39bd75b032ca7faf31075393399434f9fcc51ad38d9275461e3092f4e419135374e0b4b90cde9ab94208e00b1bbc217fdbd0c2aaad85bfa980 0x1bf1ff591901888e93d412de0c2922afe4c00daf4f91d9e61d6045442e1c49d43ac01cace8fcc00e495d3b8d979f0eba742fecd434c9cbf9513c4e9c1426ced4d0c; P0 0x186784fc7dd03425197adcbeb41b699fef5fb1a3ea9afce99272902a190172c7dad84253e111f7392c55e75809cd6af062dfd2844de466c96a60acdc6ca06f2b22f 0x155755ef519a309d141aa4946c8ae7c4a60839228f833cec406d9fdcd327c05f27d7ece901fe6ce9294c1b00e330c6202da589ad40558d8ddd8d186adf3e65aeabf; P1 0x2ab2ad72d585609026314150e0022a9711b9924494aeb24210b6b653cbfb4d74dba7a3de154b02bd0ec62b25e2ee06b26e7ec7256014a8643f8a08c94570eee1a9e 0x194e3cf0d1738d688346c2b1172893502a79361b238b0aa8541743933e360a1cee678f2354e4bda6f781e7f506432bd6f0be60a1363289f75777dde74705b974a21; P0 0x1402fe81d14fc6011d1e9d8c55def92683c94ece3ac110aa3fe25dcc75adb4e35e7fe56eb09e393865db6956d4f067d99a3a5e7da0c5132042d0ebfc45c431e93af 0x86c1eae91459d3f93f68ca73e8e42ed7fee85a299462291264235fd17fee232e7c38e47f5b5ccb3326a8581c4244dca38961d315dc07dfb5f53a4f71584183abf0; P1 0x6a675f3812747a2739457a536d419c4eccb673bae7c406ab88377c348b7c004600a87e636d5f6365a7b42bb5171b29282f49d6f434368bad00f9bacc92951bbd3d 0x1268c242f67a51588bace280ae921f820e6727a8c0d3b9cd636d75880639deed20bc85fd91c99c7a726f459d3023e5f2c11b1252cd86d6a7d719f576eae766b403d; P0 0xa97317ea3d82f3f9a0a039fe1c609925ac91e28a3aa8fc0a24c032ff8c6e7309e160571ccde4a800e37faae1d9f32854fc0a106ff445731923219b65581ea4bfd7 0x1a9afb797f28576194c58105211b2eeb73227f8cdd51ded470c0b734de5043bea370ce1a5c0747f1727c4ec835ad5c7aeb95289036bd2e97c57ecd8306b1dc14e60; P1 0x425c55c4c8cfaf143662b4aa8caf212e7f4ae2039ff15bc3920947543bed13ec9a79b5d75b489444da87047ecb06e536a355f476b27569e221ed09e6581490e2080 0x66961f6e558391b70147102cb569981f8339f6bbe6ffb19a0a1a02aae3535f41f75a52f8f23f71fce101bc3f128f9e16542c209bb40523d5edb7f10b6c574a0c80; P0 0x148dfc8a62a67b48073327106f836488369ec2e2cde286db49e223add110023676f2c3fec54929f3ad7f7070104761d835414808348dd4d3752f2fd4cf70666851 0x16a11e37f68a7a58b47e5aaa15afaafc213cf4f32b43ffaadd440f3fc451241b5ad166e5e9b06f452f6ad9dc020daf9bc435d1150173807ad19d980cab9ab02a851; P1 0x30021e4f67f99d62e4ecd75954b95a0cefd518d66926bd5939ec5d39ca236d7d804c28020ba65e25aa607794ba11a221c7f4fbb63f4ae4b432520195ae87873972f 0x581708ee838c5dd8e4000c2d97a586ff2b57ea162ac5c24bebe8dc2cfb2bc3d89ac6edc9b8d2d9c8d5dba14dc865c73b4dddc7f095eff9763a72344cc84a3ed412; P0 0xf27ec1b4acdf517ce1701761d22a25dc7761bf4c98602cfb802bbe38593923d10536b9f5b3a51a5d12bc854dfba1be8a64f2645d4c0f4656f9b402706dbf435b8 0x2f9b313a4919db6c31ce10f53958f3154d63a1da650ba6f5006cd4b2646c4f1b3a280803a13cb02aae6c0ed69dc79a5b66d396af402276bcc7302e952cac5a06fc; P1 0xd47873c135511b3ced6dd677d38cf59041e6621257a79396b0ad26df0592b1a1dfc5988f1fc229b9de2d1834f4a69e0ea5475fa1b7c040c7b5da7ae1bf4b2da4b 0x2298a4a04f5f7659a0b2c83252ecb13a933eda0f77559d4574064f1f3dade4b8922d3810fe582a76c2994a3209081a094620bf8db042753203e2ae351e90d5327b; P0 0x256735f3ea8b370fc589306b417368942f0a9038d42ffc2e4b67154f6b0ee6b6dbc31fdf451be928243bb021e8d5bbf3d4edda5a1f2590680a2e1c04ca938e351 0x45e79719cc88ffa2e087986a608c34063d194e22a64537b9a1cb832fddf205d736ebd3ca50842b5ff6ffc609d7f08eac0ed754194a67c93bf2f8e50d7813db2a6a; P1 0x1ca1fd70eb00a0658515806f9fb9727c150bc7bab1671200ae2ab24769179263314b3c67cdd660ba4931c3ea785d3158b973c81ed357de1c8bdc026955c0bb3612 0x7772b8c5afa333dd20920158b873a18a2db320bd664bf39fa668b91f0c05c5f461654dd8ded91a061e8b495616a12f02c8cca9f2bfaf9f99e44e0cb3dbde411be; P0 0x1bdded986f5b765a14ba7cb18ce32a4e6fd3fb5bfa274566fc07cb153af620a144d7f207ba98b247b0b2733f867727b4517af4250b2869b0e1de6f2b69151256 0xaa0809329aa2dad11901ff3df665b0cfceaafef4cf2a4d808025df78143725619cc04d8d5506eb7d471adc7aab91c3e70d9258f343d1165ed09e0cc51990bfdb5a; P1 0xa96602b3ad4dd481680919211869098fea5b5caed5a13520ced634b2bcb5df5c3d8cfb4b691f69347701809c49d9297969bfd1c6156a2ea29889e6960ae519e774 0x1a6efe770df120f7652fa23aa22579c9dd7e6dd05d1292f53576a35a72d4acd36accac7b52255598a42be026999284963f4bf71b825999e81961ff3dc71c9d73a60; P0 0x15d5de7ed0ab67984c14a9310ed21e04028a0d166840569de2fcb776004ceb4be365d3951cb737a06df942ed68dd4d7b5967ea6cc06bd991bb1a7e8d1c59b83eefd 0x76434c658af6ea53fab76dfefd6c6c58de2f2e5b07dd22d7bfc736e89cc94fffa58c1cdb5ceeb6e079a4a82be83323737e5d2e0facc9e1586b75a30923761392fd; P1 0x51f32a2e0816381470ba58ffac010df9bc1e5f58d9b99dde4b7364e12bc7e76badff86bc7f6f150abf81bd1a4f39600eefe5c1d164eb4a24ef75118a4e4eb086b9 0x6954f62eeb3ed0a8d23548379a7683032e008ecc244eaacd9cad4cf5f8c979c3792b42a3d3a271cfb7b2337a98396de2cadc3d89fd8ff5e0e7660da2d9748b30d4; P0 0x15ab67127c410e8cc37ebdaf5074e7b30a4e6b45cbd2139c0c74c45d2cdc735b6a70321b57ad2091048c66680188d25d4d63b0481b2b1e1165a0f7cabe3df5c20f 0x14b95033903713edaf2b05954c60582b3ce95af1a882b7bad83907910daa63463633a2ebaa306a2e93c722b8363a2ed787634cd94fe9c17e140795352146d7df19f; P1 0x28438039b46f6dbb6cf984190a3ae8a12e24e00d60b3ed3a7df72d940b17c8c95197096857d9c183e2be6d8cdf7157c4bd41ad012ecb97e22eb81c3642d3bee3aad 0x55eb0150e11157dfea3506cfc56d6510a05e126c69b9df5f1847bb7f6bd8fcc69708350310ceec243e6252df9cf9d2021a784df6f59f7e7cf65ef5b3daf9e67cf0; P0 0xe6af34d8ffa3ac0cd02aea5d4aca1b4700c632fb25a0879ae9fa19d296ca6d71e01eb0647d79ef77f016d27aae46016d25403cbb86aa0ea7a9a64f2a22d8b02f0 0xae8f37a9911168a3fe5ec4d03cea870b1944f3c141015eae9759b412aee93ab018ca6c0dbc6766bd4100ba61f3d85503237f51a403a5e5136ce0fb89f1c9c463f0; P1 0xb28a7fae9b1d0c8440b9887189c57cf427a6387f7f75313994b1e6310a071fecefaaa1b002c32b231898befa4f3a1e72e297176a1ccc4253d98e91f330b3c2c2c9 0xcbc9cef054b2fdf9c8dee16cc5fdfb49dda235068807d8078c51fc9f1654d3719a4530e2d7c2b73bc5f891b8738b8493afbf5a9143eaa384e99b50398df4d45c9; P0 0x511cd6a3e18044e5f9978778f5535a4ac108eea884750ccf028445391709b942b7372b44080d96edd424b00946bc7d855d36ab0adf8f421e11180c4a130fd7ef 0x1e1c97ab4ec6e2fea7e7dac17b19312a7f8c70eb6c7d69239c695fa45b3431c2efbe4fb5fe8c393069af326ef775b3c63980b83e6059d44c9cebf7f57e14effcfc0; P1 0x550121c84b11369732ccdaa30be6eb13e67a50e6817747b0793c63b85eef7220ff43853a8b244b8d2c3cd5f8c56bfaebedecc2465bded393950ed590e0400c8f38d 0x741bfac6fc0b32d3baf3ee2f9393e126ff07f5b0c02e576b275689e06b358ae3fed037ec5745168e79b4664cd477426d7badde77cf99cdcfbc4e9ac32d9c11238d; P0 0x1a54af29980647aea96a5a439d551a8d8a13eeae3295a99b43fa8d7a468d8baf73102dc8f5fdd97269f9824aa95c8baa1d9616e1af0850c81fe45a05fb004daa79 0xb93be2d133d1a5d3985e7442c24ed32e20f9bf4c48b7fb5dca400b144c202ee15b517e387c3e9a41c3d819dc65f1e0bb071214ff86a595bf62ef52380695f78622; P1 0xc90b69bf0b6d66231a0477c73117173bc0c3a923cf8068ac2a33e19c6e09d621c966268b4a232e7049242e8c7dfb316758173a85248c56173493dc21633743d565 0x194d5078189b35a630ef34bc974649bdaf9d4daf0026881c08a0b2fea8408ce3f60c305c8fb72ca02dfd3233e995bd6825521fbf28dab8bc3b3cf9dd29246eeaaf1; P0 0x14018887b2c32c86877e55f8df030de7644bc6b1faf0f7ba03c48ca6e046064c44c44d05fb62b81d3d17c86b7c516afe0fdaa7196af1373977ac283013dcc48278d 0x9e898abad101dc10f7a64b523762731bfb32b89a813a0634e3dfcd5f9f3de5c1513dd7c88025853f04df31cdafc10905a2e29b5427f8ad13a4b872c41fe2891e6e; P1 0x934519b691afe9f34daeaaeea055488c5c1cb1ccb8b3a8fc9562b80aa933d10008d2962c0d474c6cec75e8c66d59f7dfb957c61b90c7f870b0474a1ae57ca50219 0x63e2e00e81aa7b6e0976cb79bcbf7788aa34fc42f7c5e488708a5331c687d26b94113ab4cf8b94fe7969fc207790aa293dc1cd9a88a17981a7c9feb054e4b2e7e5; P0 0x137ca12dcb00181ae8f6f4d2b398edaed77865d3fe674a6bcae6a0db31c0a7f50bcc71ffed36e3659f24bd8c216e527804874302d20355892fd12e783237039504 0x153bbd86db928fdfd748304b9bafc24eb24bfe06299ca52056533dab0dfc3300add478c37c931aa053b3803d70fa7e7aec8c265ae75a3fa79bc762cb0916b86a7dd; P1 0x2a4488d8cbf7c9f130b71370bae8cb143b4409d8b53751a1d58dee08425b748a879a741ae2f0febf8c0bc8173bc7f0d356961744cc525e47aeea1e355b5155a4514 0x1bc0089fafc855761873c033c5afcff27b7da9a31e326050e6bf0079c103c5c20d1dc1390114f5482d6b6d81b48f07b9a63d0946e805ce0fd2f5956f437cba4836f; P0 0x18108ef4f73268fb9991200f7d1d94d1180f7cbbfc14c13f77481d79a12e9bac370f8828648f92d89bb9d8700da818dcabbbb6d7b115a9e40d319798f48e4f4a05f 0x7e41d7e93c7699c66c0a9fb494bdfc46645b570f50ca9be77f6182f5048cabd85a7a7e5940795ff5798bd179358f536c3a611074c6e11f87db5347f32598a76a80; P1 0x5d6752356b16917b9c5e8172c278e96fbada8dc20a9f2c77592b9c4261b05b6cd8d63fa2f026ebb6872eef444a825ca985d4dcd21461eccc3f13f02f5aeecf1b45 0x6d693666849fe2887df032ddf35f9f3bdcc2cb7c27964272a08b9464ab81b7561bb445c9a14f5e3044ef23317ddd70f3a3b39100fb798d54fd3bc13e374cb9db45; P0 0x176161c87c4c2d88bb729cdc2e0854c50d1135bcedaa0d7c6a27463dd09c0b2a073ee16fb1de88f63553d64a47b40595223d0f3fcca7d23e311c0299f7ce65ae4d 0x1e0444ceed17f582cc584e2d36282fbca814c6c428464bd9ac767a2d9ee4e56e0023be0aa8b020478e30e7c91ce57e04a025ddb575166f31cfd9d1d1ebd6beecee6; P1 0x547804c14cb69423ad396728d992cd3c23c279526c06c42806a79e30d4121e3b9df0694cb9f9d1fd0a8564741ea964a3ea7a3534a2d4392233c771318c285b975b0 0x569b99a0e69f73a12f75b02901e6d719238bebb159425b14851404ea9622b966253cba76f7930b62b8b215e51c92bc80b9213729d224ed910f93dcec36256599c; P0 0xea674e5bffe0fc9002e5315ab2ba03851b7fc83f9bb72fbd920ea68bddabbb9e8112c2a43e803b510295ee1fe52e315036c1fc4a2a00288d6f37625773d92b0 0xc1acb0787b4e8fbf4f58f9f920db942753c5e0b56315d2e71779936cd91f515aa27d5c4ae8e9beb23062b639863fe521008e6635cfa1cd8ce2f0d543893b6b69c0; P1 0xdbc8c1dce8340cd7361dc6c20778ead6981d6fe8935a87bf641f8a38cdad1ad7eabe7ee5eeb935c279853dd7ac9ab8e1bab796be48226c30dd2ea6aa6136513010 0x1c9cfeec5277953938f3484ddd5f409cf35da3e62464cebc3e35084a6b2aa3f16f5d4c68d3db3802906667b9ed17125e958a592d1a835a486efbb7bc8516cde6010; P0 0x1995c05aff43c17eaae1124d30275537ade55b68d706995a53394e0c98e24d7321f8dbf9057ef693e11745f2cf36081ebeb59cbaffa6d30e8e94832f1fc8a01ec70 0x2e9ab9fb12062694cf78740b3c85658c4686908207cf5701432df7569dbd09f7e41a8d013ea94044d4cf70fe1cf98d1b57184ece2f4583d8d280b11e54c9cded70; P1 0xcb9f487c57d1953b408bfcc02bb97d4150d4effe9cebb0fce8e11f7de9c9ae6160de01f408f86ad134e3ee20a87ad2d1d5eaf6befa7cb959e2d3d82248c0cafba 0x76fb771ea35d52de80f6047d9f6811af93f7716dee51ddb7a0a9889f7449918174bfeeaad8c00640e50112b8c3f55efee20cb9ab20c92e1f99217ac42490d662ba; P0 0x1ba66469860df0788a2ef8141beb533eb52a98c629b9f90eb9c4cba6c290b2291218a5961905cd6dec93c031f3dd53ee073e11b1f687f4739b6526d2865906bdb4 0x13a4ac17dfab6e4f4ca334671d1448d49ad2ff781b79b1847899e03df7239d938f170bbe05136019c800ecb6474a903ea02a997c0c41970d6bac7d94970ce11acd8; P1 0x242c934bc372b3421265da458bdce3b79045f6cda00ac9ff002d6857f78f7dcb266d98e5a7fda62dd83c91f6572d8f320f163d73b49f12faf9566e4b1c61dc4edde 0x173a3646aaa40894241c22923a529bd8520a63b3883d13f4e86c4dbaabcfad7dd3c47468c49c387c7f629ecbc44f2bc7c5c93c1105a1833a0f3073552f239edd09e; P0 0x10dc17eab1857aebc576fdaa6618bfa222480f27c0161683b8968014e2fe1ba843e8c1aa0da2695450dbe120994254f6c92b2e46781dee715b94119c41f10ae0361 0x69deb7f64934262c8f164f83578940c2cb23882c8d2b9ae7e46c9e70188d72f1b5dfa81c79043659fcf18747795d650c60f8e8b8608e71b1dc32e52aa95b3b24e5; P1 0x41acaf016918ab0a21967bc83956ac15db13c717ffc2684cb953b1b0370266ba40d6353a3efb6282e32e90d76c724e1ad8ce9953675494b15229fa81e53fb3fb3d 0x24a4d84e5ac5452fecc10ab8310f6009c112078562fcfa7a813df7018921e18a8bfa68dc476ceff5da6968966855e1e4e4ab19db39784be8b1812f5ea1be5199c8; P0 0x29f637df2580caf3a91fbde6938c27d3ee9bac87b9d9d1a90b3aaa177d54be57e8baf7f2c63bf5462ff791648c2a724c0047ce93a682bb8beb1cee1945a47be6b 0x1f92d56fc1c1f0a83aaa8745a4d9dca98489c76e261b87b78a456c325ef3df3c851f486b1ca5e998ab7c1d4e5dbf6f6afba70686305fb1a2c35964e696be7386aab; P1 0x5d755ddd185b4105a1747db520a28720313556b8c056b33b0946d31f027580134e6a77c5ffaebbb072fee3c789e1355aa7dc1dcf03dd30add3a8599f123c225c004 0x69d2e08426650c792227a38cae3a1a961e56eeec84c984f114ec25df27df0f27cfe712cd2ff9e0cb34532b0a5e6a40b93941a32d52c3b5d33ed6b6dac815ebeaaf; P0 0x15df54f0c29ab4b62445c6bc8f9253baf9db2494dc9eb11703c7a42c465d0f4d39c23e5209c81882d64c607208086c5e1a4ae6d84262ecfe7a07d45d31f6274061 0x178be4cf38e2863e6028bb1f159b6b8547dbb66a93f8b2aaeb9b2053421d173dc16c437828b8d81774eee019c4b346edac1510722eeafa41ec45ad9a88b6095a402; P1 0x33fa75742a35ec44aa9bfc7271f7ebfc1e20c4ab0cddb441d2bf8535c29ff351c3ecf39110621c29ce265a5dd42c0d8ee4b55c2348ff56b0b5e6e38360eee15fbc1 0xbfe936acab2cf1188597d813e8a7a428ba32fca89cf33873f5331ab97132ae417b67120f5d0f1bfaeb815cf99d9ffdf54c50793476f9546b8612fe1c006849abcd; P0 0x47eeea051cb4fa1f7145930f91482ee18496ed33518d8dc3c6af8d4837c7616fd12712419528dfabbee3fb249def2ef25db3a5694ee1d531f9ea4ca9f93389f54e 0xd3485221a08b998b07de0b0ed19913c857d0d023f804d1b299bc3bd44b8ed6e1939ddceb5ea00c7c2c3fab66fa1c40152bc71f329ecfa3cfbff12972c331bf7777; P1 0x1059071ba99defb58a650d919369e3d00746571e1e7a67e2d0aa20d2044d6916f43614a93ab4aa8ac0a0b22421c6d57ae46bcd71f17252ad5d8169ab2eb70689d24 0x1cf3fa74b102dd559bab8a9ab1509990c608cfef414bd52dfe0e71c44105d8afda81dbf661f471fd1a67acc7f535c7fd682e941de54e96588bf1a3735968c5e2917; P0 0x1a323a77aa46562b3ede6d9d64c476e28512bbc86e5907b05b81662313cc6b542665e6043af51de04ce3b70a32d66cbca80191a24a507bedd6c0163c5421530269c 0x11687210f9481da4606c154f4076e7e16421d2e33baba06bd493af1b51aa6fdcf5233e20d6b8a993d69cb342647f4a3b857602657697879bd341d9891c970ac86ad; P1 0x1c68ea4b295dc8260c64092e85cd88def2176db0611f493f92eba1a809475acbafd4eeeceb5dfdc206a1fb53fd91e9d0a326d24bb0e37b77b46a9f0ac0090874f31 0x18c8a6bd96b970a245df206821631561b7174dc6ffa34306f2f3098292bed2bcedb3e772de68bbaf75fe7cd17fb884ec8bea293715586740eb8bb794b546e7c01ec; P0 0x1331e44408c595f67a3cda06c363f2c113ea3f7b0c79e4a6624473c631936122b8cc3587d452a9fa9c0742a5cc621660bc4e9234b221bad847b699f7a62029aa28c 0x1cf128597ef97cc1cd6b308e32db59a0dade99f7ea11be9a92413fd49c6430f2d98d8e43761bce7a6ad8458bdf77ea7a5209a48cf38f16a48595ce7d2faaf3e541c; P1 0x4e87600dbf599fe2de6170055dd0f183f280f70aa7ea6222eafde48c62e6695aa4accfe5746959ee6360be65da708cfe628dc8545e54fcc0041c0754f3584b8c8e5 0x6930a506ce6032919754d9102e31ca4f33034decbf9b26c3bfcbeb88987713bf61e72ccafe2b497876cf24d791a1f07f26c70863eefc0696707f1ec5c6e84ff215; P0 0x159c784ef11d09e25c66ada7b53d38e8f8c1ce10a753922385e42f5ff827075b3939341a70cd6f535ff7aebd5c417195dff4751ed7897f67259c92ee1e3b3d727b 0x2fb94156f503896b7bf85e5c0a7cab60a2ec4440900224808423032b88671907abf13855dee492fe8fbaadf255807b4035ee2976737e09568a688eb857991f2834; P1 0xd585214257c0a4b1e4a94ccbfdc61c9ebbdf96e93cc380d0e731db1541e3d4c87ba4272bfbd9ca318954f4936a719fd8a67ef937fd8efb5af7b142987c9ad3675 0xb7e131157565ad4e293a53cd8e41267ccf68663039a56eddb4e1f826ce5526cfcddbd9a6ebf26fa1c8b4d7cbf8208d5fa5e705aaf288b639d2b1cf291a8a661625; P0 0x4209dd21ff7c799ee39927def7851bf82f822dddd7ae484bd2dc493daf9f7b8fbff71750065e6a7aa21b8f7dafda089ddf3fafae4fc402757b64615fb201847517 0x342dfb6e0d88a6dcad0c0fb4c0a7626a2f78c8397cb040b09b6fca1d7fcb83747992be7fcf425728d58773d0369b71a8533a03509948ddc2fb78ddf1cb8cead670; P1 0xff4119a99b1e584dddb8b3c2aab898025b4717311d328b1dfdc9e5663a3fd9286ba676b7a540b7cf29f379b8bdc9604504ee08a67a5114a62497ce6d8251b4bed 0x12822f90a1d97e3d095931c59a9af0f1751d1ecfd75f3e6e5fc1065d345cd9c3d06d5d3d8e368271e0aeb8c911dc78aea9d0d541fc4b7831040d6dedd9dce399eed; P0 0xab4872573eb1e49154e09fd144c4f1d5e4b09c718836a3bba56febf82f11bdf505eae704494e68d4c822e4240b721cc867ad5580bbfa7259dbbc11b298b86b81bc 0x4e2716a3c9f74920b94e3ae2cccf34a1320329006597371d3c6f072ec9621c8b4817cdeae1073cb3e4d4ffbbee54de70da3369970aba014955b0509c084c9ee925; P1 0x23c9c3a592782e1e4e8cb169ba031dc5e690123c2368aa7ed173b9617de1e064cfff09a7eebc3e908fe046e3e750d67b5153c25866d4130b2821036862a3b58d13 0x1454b05fd1af9831956d9b9975a46d3f604d3451a3b4f9fba99842c5b0a60ecffc718d159b1f383e246480c6854e40ec307173c56920758557f8d6a9e8a65b6ab1e; P0 0xceabc9989477992e9d40ba0c52c8cc805eaffd2e942f606ba1ef093d6c5e9a08cf81617b9c42e3290f134c0eefcd5337f5e333ab97eb1c880ec3745efb8f00e16f 0xb00894ebd2b698f610007f9d7b43cb2f1d2f144be7680a7a3ac30108e59e4c6402ea3320dd18909dc9e84d5c0dca8b9b9b387cc0a98d72cff6d0df88b0fc09f8f3; P1 0xb591b394daa6a3e95660a86e04fafe49042e55bcc871bdc53d35f25aee4daa4ba140f8a99bc1725f7b604c1dc923e19e207d22c1c23fe3ceddb3f640b0b48fe1f4 0x11347faadf915d15540532fbd05eaed92b8ec6a0c80a5faa7d9050ace69aea94f6fe00c7d147e44a42185a79fd4885e3c0cfe297abf131d921bd518a296461905ef; P0 0x9401dc67638ea5483e17a451ecc333d87f0b169ee511c409d3c938d63e85b7958ec716a3943dc47c09a892e9e493ee5a8efc393df7f4264fb50eff515e4ae3b5ec 0xe0001c5a6ee84801f5711d06c517f9eb13a286b34c4623248196da08f20366ac1b214c589ed68e8803412877a178dc959b7c4131bb0e6d7d9dc5d6732327b4eb0d; P1 0x126004a6d67d799549cf82bc22a4a87e7a719b5fe1f2ecebec2eba04c15fccd7bdd1a203b2c74b88b875b2d5dbd9035c34ad18d20d2d58c18084f21b7dee388ab4a 0x1af8adb3e8d7e90b75c0d545017cfa06fca048dd1de29536129836c8535e9dac27c3d9b4d1845f807a5fb9a0ad37f4a7bdf3428f758221d641088c170f4ebd34745; P0 0x16bba6cc6ddd2668e68604d485e78603e8df33ef7920ce0f9f233afe094a421a5c624c68eee94783c1a7ee0d47a906557fced8bcd84c8c5985d702d6f8884265f8c 0x1bc1e693d676d4d835c2646b0019894705fc5424c99e759bedcf967c21d1529840b74d2801218343f4b6b71a7f26b58e85e378110cb8a31b1f378913e47c1bbb825; P1 0x483b640febea03817e7d64d1acebee33d339441fbc7fd822632b2970009d948788db0d676933f7a92fa1d9aea8273a9b75f85d8d56388d0eba97ebe3c025e83b90f 0x2ff81081ff69bb3170339d1b6076dc00789cb4ae44d29748a9512af61ef9463591abf7a7ebe45bccf1da10785fc69384f296d653597288081b3e482d7f5c0d591a; P0 0x47e8337dc5c18c3bae27e10c78a36c1bbca224a8e5ecde5a98d56caa51eac5f44b84a23f0e464a1978de080e454403f91e0ea943a8bca39ee488bd0c689ae44cd 0x252664136ada06aa3c1d5b70156db5bbdd0e3b85606a8795f88f02fc0e434a4d6be41b6c982d01da3dc6382de2fa6573b473f7aed9f01ce9ce26d6f54f65555b71; P1 0x8162e0736a8e167d52064e098b97e5573f2f42fd9221489d0f7fff4bd928a3c6711e7a95e0bb7ed577ced13b6d29d3c913c934f20d814f2ecb1f7e060b3cb66b0 0xa52330694049de1ae01f3500e3fa5b918a342b28e42424c94fbbd2fff8e409d2515d8ee0458c3ea0abb7d44198c5750a01b1055ce3b560fdcf342f7171bee5fe53; P0 0x3543309ef96737f1702466a886d7764651516ee933162c229a1438006d7ce292d705ec5824df3543a3c2e4e142a0ff18a140b8eda23486d5367dc6e9a5a961c744 0x368f4feece8066aa3f0575f9dbe2ccce0e96d24344e8da6b0a754901af35293b8322fb5427778ccc6552d6429f01756fbaf37b9b1ab0ff5246b82ae90fda88962d; P1 0x117128ecb74d317792335c6bdd923c42277a6d7f3b1caa60f870e14158505563b17ea8b95b43ce864dcfb597c4776ba2281cfab19c9a295b964912255976b204cf 0xf9c5dade07fa081747426582f7805720136efa9ba56af1054e1a05da43f6cd88225524e6c65f01de29ed1117b25fc2b9532b7d277d1261f5d8152369191a6c508a; P0 0x79d93e57402dc85ab41012056058fbbde4cb238060f5b9ae7f33ed4f68ec47189f5ba542bb0680488ef12de93b105110c361505ad33f79f50a7040d15f8e2fcac8 0x2d720951d74b27dafe5d2150b2e7f0e87455450cb8185b6e089e0248accb496fff7d36e954aec86539a521f4f258eb861bd3cc8a139f569ae21fefee83a3f6552c; P1 0xc19ef1c9c60895f93d4d732a8ba586b2c6697fce052a961017a0028425402a70288b2c8e8afc4389c0b2b5186db297c5f2a64beb1a285846fe64e2f8ac358d64b 0x164f54b7694722adbe9d7272693d79592ba62c2cee655c90789049f468a71758af2782c0116b33fca53bbb93187b756b3104605ed322c9bfee8af3bf91c420b94fb; P0 0xf8dd9275aa0a2dd0dfde46762bdc99ae7dbc9d6fc8ed08d44e47d0d335748655dc6973caf91ab44911a7c8d8f6f0deb89c582eaf7fa0de31c528de1c9c7fbbf6a6 0x5ad4851b5f1aac0c0cee91f5a718255defb291b3d6032e86744d15f2b18e66daa81ead0d91ddc6a7d0ceafb0f7ad0444b7224237b0692a8f5409f2f2dc100124bf; P1 0x30572d05f61e9556822a2c50250279a80da860ef0fbd9783a52d8cf6781be06ecbfe123d2d8f2193d3428ed186b2337af2f6021a8707c7ad6c66813decb2b4d544 0x15672eb258a575739f27b27a54297334c652a392c01d8fac7a6e94380ea4bb35958587a6116333a45244c9c4a7b25e94a85f8fb17c32bed91fa212678903f01a8c7; P0 0xe50b9fef4987422b12d172b0f8031810ace7a9a73daab0e439822157b78d9804837d72be8b5e76f801df3699f922e8537b89e0bd5c6fcc3d5dfba4aa9317429abf 0xa798960377dbccd2ec6865cf28d4d45aa23673cddbb4645d0ee30728b489b7ae50e38f2c6f3223909297c836dd4328b5446136a843ee89fe63e452eb87ca166570; P1 0xa494a600839ac020094f7fe3d95a887bfe07a323777edbb54fabf208c5ef454f9342a06e36714dcffd4a1e1e2cab9ca74c4408a65e135ba159520df43ab8d37d70 0x18912329e2a58b87af16f1380763f27ee64feb4ecefd557bbe433fa47f4a2fdea0146b3fabdd4d612088a223ac2924373f3531b0d4d97c98f766973d6b9bf283070; P0 0x12dc4705a632242932f92fb6c2144178e36f11e720375162f39dc0616cdf729c50bc136edca91ff5d86239e96c37405f8a2ada721882b977804f551414cc0e452b1 0xabc7d9796c56ac4c7e0b7d628f404f0ab0bcb80d713b11a7a8811c00f8e17ba3a2d00bc2e5ca279d22658042b8c9d4b817b3acec82786d077961bf81c30d0e83b1; P1 0xace6e4d20f61f248e2c9aa20fc9c3f034bf7a7cc9d4804c85e703077bac664a368e353fc96d68477b98539f70131a831bada15c40f64402c81816655f85ab8c09e 0x6317e3b61f55da06f4749a47d48e872605d9288d7ead690de42319b3a5da33b1c90833ee6d366a3bb28eecdf82fcda2f8c83a246e7235c9825fe3ec9824a08a1c1; P0 0x132dbe2cc8c14298b0712da4ec1bcd46bf432964766fef5a4fbabf7662ded4d7aa3aa302651e6c7daf250027b40eb294d068f36e67e84587f4cbd0cb7cc62e8a9b 0xe566b355a692bd94180ab02cc703fbd80591733f97b325a6dca9c1afd4fc4aef37b6ac66c012c1d63d7937d8f54daadbc77b1615fd5c345178f57b234edc72de1c; P1 0x13459590ff2d63b8ce5f3db766288ec6f4149f9651ff6d74c65ea5f8b010028e05e825fcb0b08697a8b610245c21b5414b53cff2474d4c387d3dd8e9aba92d9173c 0x189279e92ecb7e7b0d277a3aebb3176c2b554ca1423072bc5dbfa7de5be1f1ac6d1de4538823d3f8b610cbba97d94eeb8a63ae01c25a96c72d467f881caa7c6d06c; P0 0x12de5558066e53af5ae5ccae49683ae6f5d7b8e354a8bbb03ee35137b6dc0218f2547f365faa59ddd7687249787b608da3a46af2cd463ab84cae789868df848ebc1 0x5050ee13511dcc5aca15bfd7e0945a0faea6d23ae985aa4a67f1b154297ebed4e632633a4b0e41f6348956c70c692fa3d0b6aa79ba9729d219328c4751f1089951; P1 0x25cc05929a43ddf184b75e43fa33fcd8140bf97710ebbe22674d1846e690f39481f10a79b1441e322af70fddcef38383db60a0c68dc9c8cfe8228488e874334c64 0x5357c91fee9c83cf5e0834b855c2d6cb9539cf1a40eb58ad86e51649b4964d91d2740c9bb3d9bb9341bd82660b0731cb309a95490d9c33f307ae93f58bccd90f47; P0 0xd91054283386a43be9b1735c08e4da1aac0ae75ea82855fa3197743cbe1c3d7de5f8d8ca4299ffb03169008cbf37a02458da23381c095fd1e67dbb7bb312a9bbf 0xafe744721121c6c84b8fb00e233ede935bfea8d5ddffd9a36870f80deced69f9b88f8bbcc1c7fbabd2c94ba8dcfb1614d779b2b3a99a48d17c0644dd3940720170; P1 0xb54d00c0d15dd6fbae69a51934d851a66f22e8110c5c01551bc2f136cc64b8afd67a3ed9bebfac9f127bace8f39c2b3e8e9eb526d25a13e914ca1fba56b83a48af 0x73d4fe52105a74cdbf07b695ac4915e501e711d5c3f25aca56ed1675dc05eb4b8f814befd4f1252584eed36add97bbf76b4d063cc5a34526b2a10b606e8f807baf; P0 0x1a3486d9f7a1a6c22495ee214ee3af9a7f3507ef2d942d8a9598a8bde32cc6611b61573350e12215c94357c6418706de3d033d96c1aceded1b48aa821da5e058bb 0x196ff9b228d385c172924fb62ef4d4e2558dadeb4a9bae3473e6a2cd17840f2c405bdb8022a3de1f5daf66e3c44223507c3ab432f0164faec740752d72b12a1fa5c; P1 0x3ca979eec072a71137b8d5d4d646ddd0cec5a563ae68f62fb3ee2069eb8a416a3c557be8fac9bea6293e6b44a95bdf2a5c6425c4d90e11cc2eb68a7684859f38b89 0x9264b09672ca334c42377ee085e7e395885ed1e1f82e91e680c0121f9d8c46d0d9d0b94d224db8db5e81c53317af165b7ed076777ac3bcd10dac5ada15bfa2feb9; P0 0x29db80830523c35de7085af1049df4d4e8a1267cd5c3772162118ce39c0d076b1f2710cbee8ab9c9ca7bf684951a66e0866b307c69592536524c807309d12b3e65 0x1db42bf2396c5ba42f5fb36672f9c10b966da4fcc12f6eb977495f8476b76e7301be15be273bb7e69e170599ae601e9a38acd26e89a33ebf83a9899f1433ec2e016; P1 0x52b79240fc5da6ea1393956a8a0e254b2faad0987dc1289f45ad3cd78b0aec55b7daefe9771101f30460625164db2ee28a8505b045045c567a6c119d290fb2839e0 0x1c4156c0dd64e4358bb0779bef5777ba493ba4045217135639b7eb51664db2006eaf312d960b1d002aae812b8684b9ce78443b0665533323c2b29e6e3c623a3bf8c; P0 0x18f2dd3ade2529a1cf096dd3d870bdbbcd5b1231fbcd55cb55210d1a5eda2364dcaa5833861c72e61cdb58903041cb57dcec59419ba5a70bfcf877f4a237c49c5bd 0x1199227b24e7eb0d7d55191c4b2dda82c68115bbaf95dc067ea2f4155d1078f4bf271dc6c852d09a8e0b9f99fcd55822b70d63f31733a0832fe1b040dd13fe3fa4d; P1 0x1d08b45e21cc9354313ec46f87e3aa8afa49e3d4db8e3aec96ea61a72d2976ed6e7043af9f8cef57cd62b3bc27db95de6442f80718c5b1e84b0e468762407ad7551 0x172cad54f56ae4825b7ef5d1a32e6dd3b6d29c1a9ae9e08094618bab4152ef33cec5a85e7b0ffa15e8c10f5f4b3b9bb31aca6166f953057d76cb27601f94586e6cc; P0 0x10c8778a754c0d935c21784acff2a69d4febf39d051b69f3459f80db629c71acf4685593fbac0db2267eabf3c222dc33bd4e5987b8ecef4436c07ef1760302452c3 0xa3be9ba82fe09f2a3a33fd7cef73a7218eb92917e421cfadde1cc2f855a123344b9030b50f494c90b12e214ab3d99821c724a09383e5993e1fdd1ba7b895c78553; P1 0x9d1a6c3565e64edf5df6551db8b3b2a68935ac8162183da435db9c29ba7974c9e6b770898c2ef31cc221c2d309e1a5b58527e0f6c6904cb68048e7229d85388347 0xc7ec31597c75c73a4aca2b43120a9f05f4180b72b715dd7744638571c2b7c10d98e66b2e20f1ce527444a70c59b29452a8a5989a1f66e7772a74988ca704a48e02; P0 0x4e10875212fffae86835ad2dcecfb64def1d384aa264af07b5f12fd9ad90560e56eb429419339fdbbb006256d8e64a2ff7529364f8624208e3a15807ed0375176a 0x16d3e2f2d8a96d51beb076666da9856857d6f540769d7879eeef867ef5719f3311a69fde576c6abb0c67221616f970af9eadab1bb1373b43bb11dd10cbf54cb4f6e; P1 0x30da792741fec7c9d5a0a9e7f274e623bf66c18feffa2f0dc560976409cf0a31c7dc1700951b026a9c12896615932108bce35805916b3415d14abe4fea88b7422cf 0x70f409e289c442cbcd96fdfdfcff4dd79212a4a13f9f063033d5c76271adaeb7a683976c63d360f1f09addefefffaf8451dd7e15a6ad5604249d73a9da4ebf5c9b; P0 0x18eb38a48862075c7edff82940c50f2afe1d7bea2cec05cc497f53ca068c788ad19e12ea20036046d53f479e4bedace0bc95eaf12d8dcd165e23a214cb86e6426d 0x2d617bfb784d41ebd8b26bbbd5a2cd4e09a5a6f82b8257945db66fe3a3667af3f72b394fc0e52eb0c4ac4ee41e10629c8e55a5ae613413679c534b9e414bb00846; P1 0xc112010655be8845a6e0b5ed447313d2e1086a59a421371ae034444728700721c1dbc2ffd2e9b5face120838050172ab864afe567686575b83c8ec9ff9bdb3e49 0x785bdd0f73f3c0a343e3a6b4d723e0c2736fbfc4c732df04fa9bd1a4e49e84b3b9ec220cfc13e1472a84a32dab1080d8094279075570aa2b6d638c7650c96897b5; P0 0x1c4b201ab24a5182d4b386d28355896399a60909183528be04017b98079844fb1ca560b8da9cd5c05b80c93302b8b5deb755402dc60fe92db573d7d84cd5c6d473 0x14f11f5bcb171e65be099518fef9a9701da36718e48141eb0f235f6798100ccff67f972ea8ac77184fc678952ea6cca557679b3aaa8ad26eebe4b7eee62acbdda6c; P1 0x291d803999b07911d40d6fcd4a7b8d4af0baa154cf73cf20ff68582cf1788802d7ce3c1b8eb2c2d0f7e5d7a4f4a4f0c9c35993e1250441280d30afa3d8e39d27e83 0xcb2b1e227f153513782c83e1a1c9d0774754595c5805b6bbd1292bd306647822f3696ef521b2b9902c43f7eacb8191cebbbe3ae71d0114520b120d5c86534ed733; P0 0x509eb486ec5736ddd724d6eec846a3d43c6a4e2238e19ff0cbb1a7b234edff4a0c6408f1ab2cc3a01c1d081ef767a4a214b828d93c4a57bb3c1f456714bc82438c 0x130e51fe1170f98821b0b9fc5e4c2eccf22e13b376224e3bb54fb10dcc05725c0f19518b31f56ace795eaed9317b3a14761b6d5296965bf443f22c5904ba67cf7b5; P1 0x220b1752cf528e068c12415cb34298417c327789d78b2e8fb6fdf2603269aaa683502e5799ac06aaff4bd2b30a8e93237b15adb926a73b0dd3f588ce7cb17aa91bd 0x1d4cf5848f54a38e863e56f2b204697fd6ad705e44b1f3af76c784019f97b9ab5a969df8a715b511f42ffa924dc10b4b1f020a10f114336f5dbfac41eb400bee3a8; P0 0x1ad43615d52a325c3d07bacab92b8f134b96b0972f25a327569410e530e2e768a96fdb50807c49582652d9f56fe7636cb121d2da782d495e86840e5b89e55908471 0x9a5163292acfea940183f21daaa0c4ee2ccbd50ff9b4f69b4382315386bb8cd7312ca32722b871e4ab2619f4a0a99d08e67ece83220e93a186c3f1cb350d63e2b1; P1 0x8b8907c424f4294c19024ccfce93d3f5a15e1082ad9c2699bf90337c2a2fde592b924983bdae005205eb471bd21d52c0e1df2e77b07a8c016f33d107f20b7ca607 0x1a78c3305d130e2f36f21344f46639cbe4c75aa1e19ea368d36c328b10f5ff92b5884a02213936da3500b1bb6717e352e117aa69a3fb43d8a437a52a5cd5265a12a; P0 0x15e604eb288ebd67a0263ff7011b334d24cba4641d896166e77c3f3f5764896a91ad92056168c7367d037be59a4ba5c54cd273751da36424cdb1e062c84a02ff5b9 0xa51e244399d038ab62dccba9fac76939254a84be1b8d53ceb36dfbfa7d9a4d13cb15941aa5e9a1c66ba7cd8f26b4fc863121ca629d1cade87277f7b16018c9d09d; P1 0x9fbfcd717de25071f76e4f5889c55d29727f17ef8cb35313540e3e634bdad42102628e1b0855c1fd7d22840309d198f9cbcc77c87b1f85a105b3cb8e6190651c0b 0xe32f0a3d0504fa9dd5937370d5eef5e38b40bcfeb319120bd73193567348508dba88f4a5e4ba230bce31a4a2b81ed87e0dee64109ce9cf27b64761a045a2019ce6; P0 0x64ce3a667cdbbf9bdb627054605e9fef0dfecc4ce0267f4dd3548877960985ffac92d5b85c03734a71effdec88696e26dde6c04dc7ee79088a9553de35cc9acc9a 0x1cf38ee85d6cc2ecb64c51b4523687ee5e6c5dbf4df7b1059a3b2cc7021e50ee3e54cc2524051b2e809b2d65c780fb0497f0b139acea77efb45cf23fcc77e8feb3e; P1 0x4e946792a03a281ef1852ce01d18956ec96f7b27377e88b85cfb5c48887bbf3d0d533ee1459232e374f26f723e98c3bf0b56e6884849ea522ba979501856972306e 0x13c5d0135f88444226b9491a63d2a23843701c63352d32df90fd026dd95f1a0417d85abb2e8f6e6e977283e4358d542a955aa872c5674d6703c68cc561e77bed97a; P0 0xc37ade638f5f47d02d92fa7a7a409665eac9ab554f9ec25527a86e25dacb99fd828478a934384a29441bd4f3d09a71340b04e8e32651933be931fa89e010234390 0x125e04e0418b0d5a91eba3fef5daac676f4474fe5d479527f9898a50cdc8a42cfc4a47fdb122ab770754f383229c8761a70280fc969b81e520b6f4676ef05fb51b4; P1 0x1fa08d2acff31bc7b5b9b37c3af0f17fa5c70b706ad7fba7c46d4ee0b75ad9e3f5d839ea9e83e1ea5ea1aa38102bfe981446c343dc164e8fe9bdc83c0801ccb4813 0x409ce6cafc309faebda4e4916d387104ad5aa25816d9a5f7fc9cc5b04a03b647515a09b15337a7db7753652a504f5c30f4a891e07f3ec34bf3bffc928727ed7bc3; P0 0x82769c7cac6849a27f1a9b192a2d0dd8753d69f71ae57fc8e782e246a6dba9877f8b7e3f198c7d9096a207fc160372910593827bc33242580fb0c74dc31215906 0x1007892ce0aa839678bdbde3e675db71ce6fddd4a143c145df3e91ffb28791d83ed99d536256c0c6228e169315a94e2968c6ae648c4a11cc6d1a0d1a089fe044f8f; P1 0x1816a0d990fff27c2ea2c61b8c66dcec7909218724dabdb770bb324e65dc9015512e48a15b96b4077a60d80609b5fe1b69090b429bf8d6a6b01151a9525fd47ee1c 0x8ee63c5ec82d1bfe24dda76d10b6d5efea2dddebf3d01b3e8d486debf1d5d89abd4ea10467a3d05f26cb9b2c0581a339d9ab9ec96bb21c88a6cbe9f42708dca3bf; P0 0x27e21d04d74f2684802b2bd061e4eab3e12f910a7e6eb81a533c2e32d514aae7f0fe5e1a9a31c914f80553eb7b2c76cc582be99921f9377a2afc153d641b044d80 0x1f8705558d66456be41d4be0b87e6f576beeff1bc78b93a4d2e181b1b58aa527850eab3d02bbe14b9743c2d04def4a623d6b15c27d39315420a436fc1fbe4091601; P1 0x5d2f7c204e1882fd1a5b9bdfb4aa32d836d320226e8086a71371b5265d12e675753ffe3d17f78490f7e3965fa7d8400e61af6f15831af7043506315229d2142c714 0x1e2b9f72875c087af37a3e8e935071c6fa6cae505ada4865ad5a9255ad3a00713ed534379a836385a8116709041fb232500c754ca2e6477ccc92c0ba90c23254b17; P0 0x1c72066e5c14124693875da733980e2f72d54da6db05eb552b003504f73f45fc0bff17df551a5baf6ace3787a92118936d1441e46fbfdb0ded6d14fed13608762e3 0x1d05307f6ba570e3ec07faf8453ae832a6cbcab80b937cf73e8c546a386b83582b6245fdb31dfd3f6763644a62db65c1b0d352a2e4c88104ef3bac08d327533def4; P1 0x4ef43a3b2d493be1b3055aab776f919b2da5edc6a7b9a6c7d1c480989162e31e50f516fd17693e105dbf19cc2f72887a74e91297dc7c173b324b1b0cb0c6c812fc6 0xc31f2b12c966170881612e11a92c7d16e90a5d339647f46738d48fe8d74d4dc828ab3e3bb90f316a1b386891edf1bbc7b7d2187c2bb594f34f103dc5e54aad7976; P0 0x4a5c3fb50a4ecf6ce2d979a14f94b1fc1728a95ab0eae09b9d9611927651e12224183c392801819a9a1c89498f97eafe536dcb0c085a54259b00ad81c4ee1d004d 0x5970cdb520a0b0e1eee1bcd0c02600c6f4ae64e64aa26e1eb1ddb13bf32e25d060b48460ad9f0546556cc7a95a4ac2a2b6496d06efa40118974ffd2aa68939c2b1; P1 0x2edf711adeb3cd0090b1c5f0a05486edf34355680a3abae9564a29b1bedded15963bbf570214826a199c3c89408ff9c62dec8d82540352235a26cecd0df3e0c402 0x6f746799b9516313faf69c7dbf0a2cdfbaecf7dea6eef7c930f45353f580300d968762cc5d54ede2e9ec0f696c36d32b30d7f78423664e94d7f3691fef1e88ff25; P0 0x18431362adf8ca8dd273440d0204f308f93d9f3d45d57bd923908c244e801465f709e52b81187715b862fa403677869c738d0c51fb4926a60e41ec77c6e2185c7c 0x14a034f7a175005d6d085ccfe02cfd0e471aca3130767200919d1062da30d52813eaa564afc6e8e03eae2d8b61f8019953dfe02e1a51aece7b5018239f9a3b317d5; P1 0x27e22cd6a967527515bf232b4e1aab12e9b5beb6c6a44d4c82ab904dd6a9e5e4ec70f443f295a1438bbbefe999f42bcc793e7593fd58d4135f316d3533abeabd911 0x3592d89f74a36fb4b079d45254641dee5db738fae72470a49d0bc9786c3f76a273cf6f2f02fcd1b3aa351d337781a55cc9c8859611e207d4c584db9f337aedbebc; P0 0x59b10f6e9bd17690feaf75a219fdbb2f2fe0c28db697fb3f4f492320ad385d29d09fe7a6425d30465a0cf34e64096d718a383a30dc15b5424832512711a74a5f6 0xc1bdf046ee23227d6739a11ce9b0aa03b9544666f6f6b864da9ef26b1324a59369cc8904d0f8eacbb1f6c1425c72e0edce9a734735f14cbe00417c0fef00a84006; P1 0xdbefe9d36bfa82107a51faa66c4a070b2e2d42364c2d55c9684519e20f0f76ee0485d9416e957beb223d4e3c0838615f3d941d94d6774f7de41a412f3b7005a913 0x6944e149bee72f6df06f4ff9c201675e7e8c3597080ef50deafd7ec5930293e1c7561c532e5c0579bdcb2a8c570c6ae95ba077a1300fae140924ab3893b7aea97f; P0 0x15a4c9ab7a04e345189ba9a0fcfdc60d0d991b8423ef659ca5e98153ece690e91d90da51600c2fa1bfb32dbbd93120ad4d2f09121ea2d47227888dd84e64ba6c61 0x1b38f79e2c65d94b725a8625e6756990b92b7cc8eb82d3c9d26fb8b8044b86d6824fb1bcfc81c5238abf4fe7040a99bcfb6a842328e4fbdadb090c13da6cf975962; P1 0x457995cf31d45b286ca285e749efd2974875bf46acb6da3e9f8c9810dc05bc37375b9b4d9f745f57ad7f2c0a28094e71cb603f7df91d447957d7a177f48f768d512 0x1854f54014190ad5d3092f03d418dccba32316930dcab50fad7b31c055a06bd9d92aeac630ac2babca8b7e37c3658a6eba9f7f491243ed83ce68f07b0a61ddcb19e; P0 0x1280516f062cc7c985d69ea99075ee9090ae5bacc2165459f30ad18fcdcf64e90a575694935802ee8e19d3160bb58f872d3e6fb9af8815b93b5996f57cdd54a6964 0x14b8d0d41a3e8702a5b178a1ce7ad4da7d48e71ff3dc56a7b0f5b92e5c1cb0d944c85e0f89d5f47a70ed7bd4a6ba8bfaaa942c4b5ee9823d0f805feaf35641646e8; P1 0x2841914ff0546095d01e171957241e5c5d03de81c365e0ac0e204fffb110bcca2c9de6d48b9a22d6e715b0a45d5b4161f475f3cfcea656297896cff6e33d613e2f6 0x16542a840b12b32b62f5b382bba99b6b9e0d6290f8357828ce22a5309385e07a798ce20e159da26029e79b5ec3b21f793db2352a8d61e2a4ae1e2034e64609ef9b6; P0 0xf9497d4fcf09674c0465092e2a871112045eb0bf624185da7f1baaf9750c7ba1c6e87e7fb150e2ba6eac7111da68f5237d5282bd860a47111973ed91e428dd3251 0xc89f0a253e1a4640b808f5631065fd5946600c7987475c20b588ccd4ca6f1f6018d2eb1e813dab0f3aced3ddfa8d11df117ae3bb408ac381e127072e15d918bfb5; P1 0xebd553fbb18cb1042e250e88cb025e3940c246a4daba08e09d2512342880a2a131d1a9706751eef2b0a766dd22415c672dc3ac70d6aa5ac7662967cff2f1f2af8a 0xae9d23e837d4e4cd3f4cfa261b849156d6aeb00afc28f5171e4c97103df95ea4bc2f3e19dd1d8a4992bfe6535e5fd1d553f102fd28c9ecad5c048353904717175; P0 0x3b8cfea25de19a088d3423922cd9f78756e8fe001b719530da0c0111a2b8af278eebe86d16bc5baeeccc120e8f5210d4f57e806959bf1988536ec4c7d10c4a2e 0x284dff02bfebfd8963d8d7d993c65de41df5d852f731d62ae07d4b7df69e6bfd000d0310d9f008ebcfd9b8457045cee8fd37b61a954bcbdcc398d17ab2d49ec9a7; P1 0x984b32e627b8459b9c53b3dcb312aa14190e1edd63b3a08640cb624aee59afbd922a55914283c5608b179ec8506a86dae44566a09d2c03f0da0233d8ef7f9e3d2 0x1ed714f5fd92a1730964dd87d57ba6ff01485590b67345f291ec283b1193f5136c62e3d6ec40d0b960d6c49ed2f8496efefbc68422b18a8f33978fe27b15aece4a5; P0 0x1db8eceef2ad310323dc90ccdbc654ed7f4516c4e842f700acc4adfa428d428a72335211f3a05979056b29a3adf8bd2761ea3ead270f3542388af96691c164861f4 0x1f2f73f14ca1099a17af29c4bcf57119d61c97f40ade3429fe9f0098dfe7dac646ae5dc62917e869d12a642dd631720ae96670018cb42c93c06208c474076b6b44d; P1 0x5b2ca505381ba9e57a07a43485b52dd5de7354b1ad4981d443967c37bdabfa8ff65aacde81fd6cc3da27871366d7dbfc522c84d1c4f1f9d5811852c19df87c46bf6 0x12adaebd294ef23f95651648b74a1688e737d72e07c87a07ddd7b5ef131d80afa7ee7702d2f7e1d653863821ef1769eebd986a6ea519da5ffdda1118133112d8971; P0 0xae71341e5f4f58d8be52559db8cb67f5d5375ddcc0957f6544ccf1ec2d4e29ff45c8ae5bf4dc7f45f380e6df5fb626292f1740f9cb71464a28c04c992cb78ab6d6 0x7a80dc450f9b4d51189ee20039bddffd1ca24b72c32796a7955e529ec36f031f9598eec86919739fa1b74b6d4adfa211334bba5aae3cf6c5aee11e528d550edab7; P1 0x57ee9c36403199ac6e2e07652eade02add76e6d9fdf7ab5725b28e0a8fe6c2832be03e5efb0704d2a6a3201bcfcdc2abdb1ca060c44125d35f6fafcc8b7dfaa8cd 0x174a5dae5c0f71dd3664d61c86f7b9170590dc490710d7398e2451fd56fd12789d149e530af078738c142a0148419bb26538f81cd7bc077650b3a92e39c049b3540; P0 0x10f3937cfd01284093f16e2d3861b1916488097a148f89d57b6c514a58e04a156fece416274a3827387666096b4d9b0802b436759da9a0f0e28aaf2f230e297d169 0x13b7002c9960c0eac26292ff319cc45f341719c768de49bfacbeb9a2e3da17f9f2ebff0a67482b5881ca86bfa8f5fe34f910de9abfc1353c61345a08ff4692b6169; P1 0x2470343cdcb83199c7579eb16d7fd3e87189a5c6898e25e4077f7c578b617c6aeea4247625ec51dd38b7edd6e61dcf435707bf06ad39d12b4eade963c52a7ea2629 0xa85dfd374f4fba12ddae87b06b6bab715d28e320e0b1ed6cb11459434b1697a6c5462b75c8a24395495885ed55aba963d1a898a28e0c28c8674c830e90a8ee5d5c; P0 0x375dbf6d465f516e5ba3d76c30092a2e3f510a8bd91f338f4d64124cc27289ddbaa4c3d7885033a033c281f883900db4e2227aaf9ebeccb8081191214d0fc74976 0x46c5e9e886fc06668651bc1b2cda8cf5f93583d593236f9e4fec7ebc4b14c961b30e8713155b7a2962fdbb3d5ec299c4886273a906ba6a27aacb91f14788e34286; P1 0x1d593f637f2002746e4db0b5ce4be752c6adfdd041a6c253f977e35e54ffc2175c94c6a6f09c39f61dcb50ac9770b37453d8194f29fe8b404f0f481acebb0a563c 0x1010edc1e9b25ccd2b256ca670626b2482a0f756f35b42b891b0144447ab7657fc1448261ee3cc56bcfb019f6f214d5b16002db4c508c5a8c37fe307312fbd270a8; P0 0x810f6b69220fbdd9920559b1f94a005d802294bc9055ae56dacaf278f5c5734ba4441e1aff4df078ddd4108c0236b4d102b56e58f24b82d8adfa130df1df107d27 0x50d0529b3c23d945a4d6ce1dffe9a2e143ccabd38562c1da56b0dd514c8b872b87f0548778572c4e4e083899e2bf17f6664b22203ca7d516fd0b982b785443eb67; P1 0x26444bbb0abfec102962fd06075a6639d7d58a2cbdb0952d45b07ad4ad7947abe17f9605d52ec50750b669f427ce151e4d1e01bc811268b9a233f0522d0839a578 0x1846558d65d7cc6dc42a20274fecbbfda4199db769745c2869a72b924400e4e21ac0ed5f42438f0180c4d0353f3a4a48b0566fba1520d4455a5265a1f5f015a6fcb; P0 0x126a1aeb481ae0983659fbb5252bd7634cfd67a3889e2c5292a61eca3742a684ae6e96a16c1773c6cdbb6780c4f422458dcc3f782c8438c56a091029acb702bcc11 0x87e42b14d49242a647a04e7330677acde9116f3d1c3ea9457e1caf4ce4d953599de99797a74950a37ef30d8aae620616dafdf2c6a2594132ab57f29247d1b9770a; P1 0x6c33a9331ad35be3b239406ba4eb84bb32f0ebc63f0724f961495be00ed785f2ddf32322af7f7775a9a143451ef2f6b8776b41c0ac47c1ae8d46df99b025f9f5e2 0x61b89d3d0bdf9de05291f11ecdeb357f7418dc48ba3c9066ff6c0d08a386b8dd0b4db2b265f52a6f1b2daee7eebaba2d159db53eeb798c2f637cfef886ed64db0e; P0 0x12a6b62555aa3b1af0e653cc0273205d3a060a2aaf728db33020885dd9da4d101e1359185c77809a7c0b927d9cdb3fef054f5d6cd2da20ba302f286730386fbb6d 0x1fe0c9c8fc8adfecfadfc28fbd19e98af34f463ad6f607531eb46e5fbd8b101852af0283e1406325696d5b94a3fbf5d3fb1d7e9202524dfc66d3914bf2c02d0b031; P1 0x5f45160a1e937715dd869af18a3f642e6eae30b5a6ac856abcb88f705ee708df308e3cd6bd0923e42d344ec94ef47770b228f0978364b7877226c40c430eed8df23 0x169952be1e65ac75bb8eb81ee6f3c7663a273ebbd6914ad54111a143b477c7dec188dd6b08bf537b587eee378055a7b5296287b2a063b0430d19541975795831b46; P0 0xff5b06579c13eb52fd0ffa2dbc75b717ca5e76518334c5836f0c3449b5c292eaaab05bd60969c46c73bd393de3d1d3f228e96a2c02e9ac8b5f67c63a22e3f5ab63 0x2d971b372e3d2be114442f5c4e23cb4e1fe36fe66c08c31a479161cb653fd5c35e808906123e50348d8f0529e5ee7b6339c44ce6037a264e565ded389b4c818287; P1 0xc2db523c65e1bdb0bcf60b15c9433178f9ec030fa94d62fcfb92a7168e393a3edd7b987248584e06de92e9750550e8753966063c8fc8eecb6abc6f1a91aec9eb6 0xbd6b2cc4941280ff26e62b3168901c0d09abf899aaa289b87340c6a5bb7c8dac62bcabc1c7131a33e329658a7efd6caf91a1aa67944d6701c3260dc525febec849; P0 0x4613b67c5b65a1e50186815f946c88801e7dafca313bc73232260bad4ba6692f8c7b4eccd0c84aa41350f667e12754d553e5c7d0d8093f6ce79af7b33b7c5368e2 0x16a8e62d2068692f81262427959f25bbb04697abad4d43029fd444ba5bfb0552ca0d2446ebe1e253be2d7fba2f25e425cfc647ca065978320a8df4715f441618db3; P1 0x302327e01a265f55d8b01e18e3910616229dd5faa19cc6c7c575f0aea77fcd4dd48a89e6a0e44656f151094a9741d30f720d4bea5ca32501b8ebfee39f6c5107023 0x9d1186369f59edea6db0873dc154ae7fb94974285517a7ddba855fd04308e97cd2dbd2d7721d15c6b31ffa599688af7ef35d2bb745861ceaa23584b903874e719e; P0 0x302f3fe90c89591e72efdb17a3e0591e2dec83bd80179f731e6c6ecfb1fa2aba2f32fe78a14467391b6a797b026d4040661c8905acb13be2e0bb1ad776a05187a9 0x9f0e3b4eef17e1e85a3d6ce5b11e71a8ac51b08a62e833d220340561561a8755cfcd9cdefd461ce2793b589de306244bf0be26b6306228a465259bb108b306652d; P1 0x943c05b1e30ef1aa5e3dcdd2208ae10308fd91a78ac18fdf3f22392962c2214b1c65f4fef59848ff6ca109d97b73495c8b0d2f8f76f70f4a59099e55c24cea9642 0x1caf7994f8104832519b9d7b9857c351730003cf5b8f7463e87e0016e1236d8e827b3a5ba594c874ce86b156a53ec45e262b6fd7ec6a768c3672d99d123c93433fd; P0 0x19b6d7004d66f9e6f0c1ab933ef3a00505003ae789e2c18896393a686b593fddd0cfea4f98294be11283c152e2d426814672ec3c56cbc9bd2c9f3b50ffa1cbcf41a 0x11d2a50538c4b04075bfb793ff2b1c00710d692984009d5c139d814fa3713eb2169cc11201b7c7261749e70f29425a75384f8db124abbbf6494e96b65709013bc23; P1 0x1dc7adcc4b87c13cd4be52cb397c6c22151e4519b776b4a0b8ffbbdaf5f5edc12ed7f27c1d9109e659f9df1eb6588dc3537f1b13a149ee9655ea06105f0d13b7e7b 0x4c45099e447a5a678289a05993b498742f89fb4162884fd9518899704501d3b6a248d1589d3c4097ae4d03ff6bdb5da2a4951174f2cea9273570925b57579bc4d6; P0 0xb5c882a142b0925b281176cdb89c769d7335b1cc149b045dce54542ac015eb6f161cf6912dd67bb40c713a3c69f81cbf9cb70df4347e7bc03df8d27113a705946 0xa20b50d7a6235cd03da87b1f6d95fa8e3383d26e13e25247ccbfd03765f8971120a0b9f110f9713d030738cb173c7d243368fe22c20bcbe09d0b705316a0ecbc2a; P1 0x99db7c39777ec9002bbcb0cfb1d81118a0a8c711e49efd10051f6a365d6625e5c8c46d3d9b8baa40eacecc240dc9ef2ff6023ad63975cb70ecb662f46230195541 0x14600578f85467fd133083d40afa384152a017ee61cad8ca6b4a285fcbe9f15c0c03fd7a8e3180406738029f715fdfb682adad39f70ce62d4762838006a175279ed; P0 0xcf926f80d2b1354a717f265070b546e441db184e7573b24c06661ae46ebc647701979cf86f44c9f8011c9924a1ca9a980cad34acd0abeaa056bd9120702e72e696 0x55e8eec61a7bbcf59753704556f39a49b9e8846f1a7d41bf72a2d56532b541cba83174acddc04e7c9cd2392073a11d0deb12e5fe5ee10bb4f977ae052f1a58cbff; P1 0x2b3ec3c1cd08ad72f1acfedfa82df0a85cb3a2e578b9ebb845b86376d98e7040d36b89daa8dfd69c81fd3a24798c5e87e2b886fc0d7a49e26e8323975876010d1b 0x13d77d84fab603d87f24798e2cd3078274eb05a777713851a7efff56901f5888e8f24dbd9ee3a47eef70bcb6d96a258540dd39439e1aebde6c41aeaa8f47f9c451e; P0 0xc4d902e80fa21aecc12ed429ffcfa83b57fde7fd9cc00e97dd738e75a2bf12406a6fea9ed858f53a4dcdccb18666261156f76fbba0638cadbbc1be7c5c0d4e701a 0x1c7fee3f81cd9c1a3f93c71cbead6f2391ee8bec8586d304dc0c1aa9c9267c7beb49fea691a4f562a63aa3f946bcf57e5ef5d3fe2a65bb4464d0ce098420879f9e; P1 0x4c25a1237b2dde31cd3dba89dbbfee5fadb4b2b77dd177916323312322f2b15714193dcda4126d9975438720e26073934701402e7bb86418868f9784a78610d56 0x121d59df9f80af3b0d8e6a6b324ecb814ce9f1e61192ee3bc33a17537e9f31491c2f02ecd8d959c3f4ea241093a8e1513b4b2409a13c7d6103a9b792c5e2cddfde2; P0 0xa412007752be05605945f270a7557c21372bc9fd0373d2b14e256ef2af333868b44c1ece5c60c50901b57abf4458af3cf95be61dfa70e8571ffbcbfcc2bbcb540c 0x59303aac7beb9362261e03889d5bb3de36f77bc9417d228c94f2750e9babeb63fe4e9c77378d204ec169b3591b07328936e161aebd5a1f5ee2f1992e80bfc7cf90; P1 0x2e9bdad2fa7051c683f2daeb0d602a5a9a86ef32f201ffad5263d7d6fd4613a87b6d30521d6565fad37878e54aa6f11042e6d44a264e563ff35ca3e4b7595b8c77 0x8c3f42435ddc3c313dd24c4c52bdeb991f972741684689a634739ef2ed4534cc736d85d5d37e3da04d0ca17f16734ddef9c5b51327fee8d4a17d3d1fbf07da1f77; P0 0x266aa00dae7bf12da74a8be78e97f48e48a71d3eee223f61f69789149d093edd382a142a4a44d25df7bc1096a8fec4e9f452d627ca90030744da4a7dea501e952e 0x114796bb4575f6a65248d68810135cbd738d34e9875fa9e09e01f548972f0fdbcee25f5c68e22c918b609d29c9d169f80c35acb8cb792d046139a57eb0e6ca89e7f; P1 0x1bfe10ebdc748e08a1e0c6f842c5aa58878e91d3ada2172a054d0d51ca2e7806a0daa285b90d48521276cae970ee38b964596f2e5b3d9b95ac341f7778c792adc2e 0x475fb0a49d8e5994402ea088d726255d8c6a2a20cd2f20bf1a178b044b3e4543358063945e15f603730926eb23a866925938902477030cec1fbf95159b2b9de531; P0 0x9f31bdff1ba53ea591403705df4bea72e7297e8aacfbc8229d9af76e4361b834b7a76b22966884b726a7d7c8b5f25b5d6ffa4b0fd23f09b04a44084eda521871c 0x1a89a2745d0e8e7e2ecf84b6f7a5d9c4d665f825e67b32497b91497e3e88e76f347e23c876206fbb4c0da30a2fab6fcd7fdbae877c728e1a9e44d8684a5066c3a7d; P1 0x4205e7e5fcf0dc98be30088c5f0115bc53aa797588b2fb718773fbbb6a4ddaf4917087a8eb9e4cf28f23830984825b8c96c2b8488421da8b9cd6f8f3d404e116866 0xb7f7c59b518ddcb33395936079159a43ad228aff1cfdf0157e77a15d75e3f15b31c0e517856cd38e9c5a769b19f207c34e820c5b8ff4e9ac3d621be62416900b81; P0 0x421a16297c6c4d84237ec3009fc4b9c5fbbc2c2d282c0888302242a679ae84000b05523063f64464ad227146fd0a8192671c5bb14a6c3501f6594fba20a8ef601d 0x1ec734478bd67788bd40e347385205ad2837fc6a89f09b04a1fa0c69a221aace6f5057771c52b1ec88e86e0647a6a969899ee67744d90e9be42b9b1d56fc693b71e; P1 0x58cf0e4a206385fd146d689e5499a44de396aed7e90c38ca661a65caa802bad87ef9e45ee67f69c53364c966fe0159add60458b2cf34a50f05461b92086eaa0b30c 0x1f4c1d530f1e512d33c947b73cf05ddd336c032306fef6b508894e26c5f423f0c1189de9923aee88d01da1d6fb2eb2c692f30a19904aaa5a340f2b9c60d90f06998; P0 0x1e9c2ddc52b1f0469297883485ce33416d08d902890169d77ea2a40b40ec093d1a337b8df140b4efbc111c3451d14f730c22d8e4b6e59e7d9d9e73a71fbcfd74825 0x1fb51a0685499577af7d79f5ce4fe814833791c627a578cdd94e2751518a80b33b5298df1a61b09c7dbe05116f6d444e8520bb178f0755f35e1d2bba3fcf8655265; P1 0x5e40aa116386f3cb66d1a05f91d9bba09ba93b6ac14aae8ef65431cf93ac09105eb3373cdcc425151c65f5c45c0ec1707eefe73a4ad3884ab02390f3bb203d398da 0x9bd3e755f04f0aea6fcee63c2307dc859afb05e289b8acf6fc92bb8ffb6c9045c373db812adadecc036b26b96962acaa0b432442a772805a1d71fb21736e782c65; P0 0x2f6d24c49cdb0705fecebe18a59f63fb2e7b049b5c324d10ccaa06620a62ba68960313ad3c430a6955aec882c1b68e56b9a2ad5db0a28b20ab9873e3c8091f73c4 0x1b47f86ee71511108ce9dc71daaf057088bc7d856a2413df8a6e7a54c508d0a1fbd29138c8aaeae63a7c84a5da8496dca74efbf44e3063be0ed3b974f167b82539d; P1 0x45c63f4b5068693c2fddffd4149efa39b6f05d4e07fafd60f2b11770531b0f2c209857aee67a1830f7ef590ef8be51bfbd0ab42a12760149b2adfabd5ba7034b65f 0x1d73be5887d5dcf61d1b30b131f250cc870a6e9de055378dbaa90cf75cac5a779bedd955587ee836e968d2006bacd39dda04c796f619dbb46b7941520c41e7e413a; P0 0x1b1b6ba4fec0339b36766c9a339a89ac6d66920c8ab13579282d0deb24c1f04a32a93b2cbc7cfddde39ab6ad9836286c0a1b7d7ded066a5f338d5e6c373f77ea020 0x1d234d6aea66a1426465691a80dbdc349ef2690f306ff7d1c3a7b0c5cb2edc4e3b5b384ef4d7f96e415877c42faf21447f56e9d89eaa12f8624deaef9d1d5352144; P1 0x4f9869cb9a14162bd48894bbe81ffe32e3ce39ca1fcbe1b21b425b1c2dffa967eec3319841b185294b2da5289f3c26b03617d1b8fc1f48e6bfb927ef94eff534d8b 0x75ed1018d272fcac7fe3c0425df2435ef2bff41ceb74b3a62ed6a592c28c3e4fe7108707bd9fab6fc3b26ca577cc15fb3bca874e076333915a92e7218cd6c31bbb; P0 0x1b29461ebfaaf04a033861fa0e2aad4f039baa40a3c9995af18fc56621c30d542785949f9a33c15086154fb21891809750da09a81a2af8458d51788f6d632168dc 0x10ac1c270ae54aec81d6b3cfc69791b3f60cec9176bbc94df90190f9d321726ea76197c4990ae629403d9221e348d472a1f97df2ec6159b57a08fa9e10549046375; P1 0x1a0f2d81561ccb91520e20196f50889784d4efc5707b513609090df7965e1e8f7f798a2ffa30fbed3437e999947a67cd06d269efe4736647a8935428ad946fe65c2 0x1050a9aab4e577883abe6b15b7bf78121eb0cccd867c1aa1e0afafc5ef6db9fd2096f1c32df5d165c1f64962bb8833c6e8ac09a613131b6cf623a29b2f33be1802d; P0 0x85174fe8e04983ba725054db7c3d3ee24bbc1331b4c6c9f4658d8564596627eb581ad82e68aaecc1fe789609f4cb8d10184846902095375a3f358b0840ec3b321d 0x12c0db16fc8921deffe53884cba0f8328f11d65a8b97b1af05934582be4fd4e71248d789aa2a2d1b9c67acc116e6de1b637612e7bff9b44c562fa4ea96639823a06; P1 0x20f8824e63da2e5c0af8e1ae0521f9e7dd3c3edeae75f845b0aba0934f9e6b9a67c9dc17e75ca35cc40809ef77acaf6eb2a027d28b8183ea003917af995644c56e2 0x94b08f3f684e8172d12aeb4efd8b84bdbb7c8ae4fb00c35a3b6c73bc9aabdad8dcf62c6e89fdce0e24107c188f730da13ba96c4053b4f42a18405b342e5a087f4e; P0 0x2b2e4fb34bf90bed7abd8c441a93a08c2b859f6bd3dd178dbfffa2dc8b7e7555e5c7a1f3dc47977d4d46f3ac3c8d4dfd618242d0a4f469b59c2045c1096ae351c7 0x1d7f7ec0e3d5610f4389ad0a8b272595d7963439a72210dd5ff4c7bc7d4e2330157f712c9145ec07dc24fdc0f0cae21e04f3e9aa9424d124ae590292adc7711cd8b; P1 0x519335210a442f8853c63bff437fd54b4f6a06bd46d994e25fbdef46cf94cf68d4c0684e8ced7620a8a093e23523f766096dc64fced70e8662125e7a6980f15ee57 0x27800c812b7809d4470db403ae55c164b13991aed71f81d9d28a44322a9ac9131d7b8cbc4b39742af82133a1cf47ff8fde78814cb34ad469c7e9befa4c918faac2; P0 0x30c21edee8334244c9a4a5e475f0789442b2f2d57a4a16440724603e82878d28a199985e34e4dd895a4340a4bbed7d501297381778115ac58bdf1a9d3e2d26691 0x122bef829e570eacd8a71a1c121ccb049eca979a001d5d8e01f33c38a8602e25501def713747e8a5f0b8d184341c088c0b8b5e4c5f8812d833eb37e0513dd74a195; P1 0x1ef4fd50e57e0687a6e3f68a74aec2249949a5aa3b5667341628f75c0125650e19321d8cd5e7b784f778593aaa23326a6c473b195f3afacc9c0e1483a43f29a2cb0 0x1b2a39ae96f80a858e2553f4033b4a9e54d9071a12046a656ca7c7da8340bc21531c9f0fdec05e29c3b238ea5f7f465657058a7b9c4d473b328aee360f837a86edb; P0 0x170f790e71088f3d359f3bbe2531ae99b418435ffe9c9f5024e7e1164e0fdb7fd99261d5c43f26323a289450ce5bec7c79845fcc26d6f5b8b19888aeeb4266a0f84 0x17080aa1c4dee19fe7dda41fd62dfdfdc25e19b0a6ebf646ea9ca4f9e81a5c57ee3e554d30285e922dafd4e703db876dfa3752d4de1385d375a0a81c577efdafedd; P1 0x31bab3e99e4161d3289f92fd4f8deb5f739bd84182ff7ba20f8879a196f24a4d7399ae3f65c3b84ca7224bb7146e434d7c7901836b25c20f0e30de8eb2957572421 0x471403ddcdb6d04f3af1c4a7f6a740f7a1eb3d49a56c25451203edf97d566833c22e1fe2a1babee7f1f341087074fd85dbc1cd9fca1e1d5ef129d20f3273b5047c; P0 0x9de0ddad1693f8dcd73909a89d4537d1c818bf03b1455b6f8e212ed1830585b5db542f8ae6957ecfdb168d885685afd8f71a447ee4aaf5f3fe591362838c941dc 0xd5931563af4fb7ddac28b9f903d09365df6cfbb5dcee047a3c68d1815d4d2e1f1641b1681d52ae447d37f1b2eb371d1cca5984a6e041a1a4a39689a09ef8355dec; P1 0x10b4521262dff3ea443683935c7df25462ec20e3e06fc011a4e71b8ae43b99f5bb44e794d8ea87a626142f3f19f3f023a4d0a588041c15a35371a9c74164c2c3a78 0xa48134d799e78d9d3dae88a8914c31a884255c17aaf07f243f73da8a6339a2a62394eccc11dc8de571128224ae7300752b08c90dbbdc28094a762f95521eb42f28; P0 0x34dae67544b10a74103f107085484db807551416ee4de06d76845cf84c17df0fcfc68b6d1d6126dc4cc858aea4f91d54d0a3aa79abc868de1da062f1c4d1bfbdc1 0x197d025cd3e85513ac956407fcf97ebad3c2e9f7b73094274b1ce995b5761b29c6e433d78a08cab6c60604fae1beb0abcb80982b7998ff304f53f1471448aaf7401; P1 0x3ce7b422817d9b652f8f90a8ddc67d11654db4804f997d00a4f5556d09f08b2b0bfaee6c668450f3092f5d8eedae79788371379e81166b5947936a24d4a6d5511cb 0x15c34929b6e9caf0fee8ba3785e999433d29b8ea1519107378bedba27999a20fa821fa29022b7556f1cc10e21156b4770feb70c1c6f20049c19a75ab8d51321c9ce; P0 0xeccf7cb13bea4a12241cde71a8e35e631e65ff05f90ec33fd4294c6796b67cd4a37c48dee0b3a31c7f0663c28cb7154978e3d02ecee23ef9f762582b63da294cef 0x7235c0bbdb203f5223cd6cc0cdd05aed341f2123a2a5016cbf1a5389646f65db4dbc555a8634bb2872c63f9410fb3c2c7a086691301575fa1974f0249a145a6eb3; P1 0x4c6de0690511a96e695488086cbf3c93dfd666440527f3b3461917f2c023a4535536fae6e7ea45265358d756166c422304cc3ac68ff278dbe4d29fd5f69be6ac64 0xebe7941f4773c2527e6bcbf6fad130c7199820bcf96af5561bc07123d87f7948b676e1a409e2271f9478b6165ed7cbbb9caa0bbd4242abfdcdf2292fc495159fdf; P0 0x6cb17db709aad40e2fd1f5a55af21789858115ffb04442dcd2f28908586ec48633b05afc0853d15559363c7945a8cfb7d98da46db39d9fad1b90f940b497bc5f57 0xa2db900c9d638565a7efa2d756dbf702ad2e7d5487cc6af6e0c4963b3bfd6e6a98dba0cb524d29cd99c8f5fc692cae3d4a94f56875afe8e722f30a1e19cc292398; P1 0x9b67edef9cc0262efaf40f4c6d37b138efb996eeae53766cc697aed7922b342ca77a0a2eb17ad217a36206b0a208f5e7002245f5304729fbecbf88755168abd352 0xe4ff56b615a33f3a2223db42204ebe1d4879e3f4c23e517d80c91f313ad856f33ffd2f568faaa38faff90c923ee572b352878b3436b2939ac23cbef6656b949212; P0 0x666be89119545df1fb8684072b69ea7078ad7fe64d7aace3327d39970ed3e628cddeb3aafe63e826db1db8f4c5c8075237e83f9b83f591e6da4fe16d51eb442887 0x1c692f8163bae5dfbb443a6e4036f47229e31bda4c92ace0b86652b77d5210632fd50604d9a96827b66f664b2bdb6de540d242e3bf4c1495a132bc4cfda2f6cb1cb; P1 0x4bac46a7628306cb22aacd992997d36a253e2631b0675d118c9533df95c03ca5e2f88908ca667b1996226702f77daa415770639312ba9fc7cb7bdbd6b9d4b4d29f1 0x150d443e30b9926f3317190d25d409255d9217a9cbf1333bf8d8a3ab9207854d4b6d92543b9a99391e79597dab62412b969cce362e1331afb90d08ff91e65942edc; P0 0xdd96f11a403eeeab508c7231d6a36d6d596f83eaa9b03a36b88fe766adb2a932563cfc0ea8f34a45d8ff530785b49150de0a09772720a55e697d9f9e86788a5560 0xe4d4a867e2a123dace3afed9b9ee97752f129dedee55a9dcb512405a6d8bd715f26839c841e150af0465d0c3c6841e3b6a1b9615d0cf5fead19198d4d6477e2270; P1 0x132d13af099ca598b2aa665b8a0315ba805bcc4b8d41cab2529cbb62dd75b5fb6280ede9de89b728268b978103cf030ac9da6375a515c675f4a6e4d28c4c7104ba4 0xfc66c4d7cc7b35fa0ab686c35312d91ec93d317309cdd80df6342c7d9f485bda85cb1bb200f8092133e4148ec5a57653f70a1cb4ffe7b2779b48f40244e7b61ea4; P0 0x7c6d3e6526f255bc86a4033e6b6fb84ca9d7b25742d4533a8a87048fcd8679237e319a8e4976d5bc9fb779e46ffc259445b63180377d02098cbf8db3dfb4e30164 0x18e682a3c0b321c8e78df8a509def39de9c22d5e44d600c207d46e1e436a9da69ed63b7f1de0f958cf3df09a7380098ed86ba5708350dcce6b62b22b7db41bdda74; P1 0x3a20c148f8fd900e5d76c239cb3f60849d8cb8356196602e9c79d936b317616dc27ebe22fbd11ead9848156b81daafef0f4a740b87f53ff338b509c0b2784bec251 0x1cca29977692f5a5026a11ad95ecd9be17ecebfd29f3a811e31bb18dd9d032c354795a2b387c948df9eb4f26776cb1ce4d425ee3df6092baf233b22bbc119d41001; P0 0x19e6c5f65dc919ff5f3bac0f5d6543ca196c8a2be08cc95252e2a3da9003e98852c01227341a198fa74f70069dc730ce6e1c050e44fd2225d09eb1ffcf451f57549 0x1db18a9f013550eef4e86612eb91c7ea18f9b40d74ab8b9903d4dc258c5a3395e3ccd81c89e193db1a87cc858e5f58edf75dbe615f7ad3c64686520af41069d954a; P1 0x52a8ecd81d058300e1d66a509101e3ed6cff089d7c6f23036c674c0046fea0e484cece49eed02934614fd09094464e9b861fcf21d21ff48030e18251ba38abd1710 0x1f44b9807696e6f8d19e6f1a904406a70fc75c78eb3a16b96dc2955bc5e3bf95369f27dabee47988fa73c25d8c0e488d80a1e1f09d437b53bb2a68b5a5f4e36c33c; P0 0x1e8dbb017b13bfbef4ee45e76a42db4614acf174b6e696e33eed0ebb5d9a438fd3295bd109607e3f7fa86449ab13a68ab410827dd3077dd317656d0e35ef3950bd9 0x92bec9054d23e2203f293e1e5361f76900137bdc2f320631f5197153f2543e25e203e08a691aa6465027f90c8e28928ba2c548318931af7409cfc9649675c981e9; P1 0x7e2d4135948f23a655774f5c8ebee3f4037686182cc17d1505ca151f925808ee17e00c7dcfe92abd9d087b314ddb714edecffb58418f6525099ad758c03b8bdadd 0x184c5008870623148381f86cdae1728fbe8b7208bdddee052c26bbf15dd049fadedf88e15cf2d3100346695698445a6c9632bb2cd5ff796351907f995f8eef7cd10; P0 0x12732e09bb353729d2e782f54c3d3532e41965e78e946e70f68b51e7ec5a537993624b24762f679bb5b51f912efb2774aa3c2326ae4d72a09e2e00dff13cd927d69 0x10d186179a512ec72e81621eea3171973ad7619c9906e2321237ab060d06543a1fe3a8ac0e47966617c603b08a9c80e99c8aba6bf80066da82fd119f3ae6b51e69; P1 0x1a84a5ec2194132096e35093c65c5e80168bd39c53c7c4ea558afb5b80ed1db697e84186b281304c787d61c69b8d451d98cda0a8c185adcb93a18649aa3db0607 0x32749246cef38c558b84265cbe9454c5b08624d5cb14a69636a701122712fcae5faafa042ad6c33247520b119fd582bcd5a02f43e801348f88f734ddb0b41f5b3a; P0 0x4f8df1c464bc3961c4a9f1bb53151b8043a37ad4fb574ebf00a0f21282c75923c7b8c494178390e569782553d2a7cf58ca68e1fa44910962bae492dcfeb911215 0x32749246cef38c558b84265cbe9454c5b08624d5cb14a69636a701122712fcae5faafa042ad6c33247520b119fd582bcd5a02f43e801348f88f734ddb0b41f5b39].
