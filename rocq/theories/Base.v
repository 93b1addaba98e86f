(** * Base: bytes, machine integers, results and panics.

    Everything here is the vocabulary in which the Rust code of /repo is
    transcribed.  Nothing in this file is specific to one source function
    except where a source line is cited. *)
From Coq Require Export Strings.String.
From Coq Require Export List NArith ZArith Lia Bool.
From Coq Require Export Init.Byte Strings.Byte.
Export ListNotations.

(** A Rust [&[u8]], [GenericArray<u8, N>] or [[u8; N]].  The type-level length
    of arrays is not modelled: lengths are run-time lengths. *)
Notation bytes := (list byte).

(** [slice.len()] as an unbounded natural number ([usize] is 64 bits and no
    slice is longer than [isize::MAX], so no wrap-around is observable). *)
Definition len {A : Type} (l : list A) : N := N.of_nat (length l).

(** [u16::MAX]. *)
Definition u16_max : N := 65535.

(** Truncation of a number to a [u8]. *)
Definition byte_of_N (n : N) : byte :=
  match Byte.of_N (n mod 256) with Some b => b | None => x00 end.

(** [u16::to_be_bytes]; the argument is reduced modulo 2^16 (it already is a
    [u16] wherever the code calls it). *)
Definition u16_to_be_bytes (n : N) : bytes :=
  [byte_of_N ((n / 256) mod 256); byte_of_N (n mod 256)].

(** [u8::to_be_bytes]. *)
Definition u8_to_be_bytes (n : N) : bytes := [byte_of_N n].

(** A byte string literal [b"..."]. *)
Definition bstr (s : String.string) : bytes := String.list_byte_of_string s.
Arguments bstr s%string.

(** error.rs:17-34, [enum Error]. *)
Inductive Error : Set :=
| EInfo | EInput | EDeriveKeyPair | EDeserialization | EBatch
| EProofVerification | EProtocol.

(** error.rs:36-43, [enum InternalError]. *)
Inductive InternalError : Set := IInput | II2osp.

(** The observable end of a call: a value, an error value, a panic
    ([unwrap] on [Err]/[None], failed [assert!]), or a loop that has not
    ended (only the rejection-sampling loops of [random_scalar]). *)
Inductive outcome (E A : Type) : Type :=
| Ok (a : A)
| Err (e : E)
| Panic
| Diverge.
Arguments Ok {E A} a.
Arguments Err {E A} e.
Arguments Panic {E A}.
Arguments Diverge {E A}.

(** error.rs:14, [type Result<T, E = Error>]. *)
Notation res := (outcome Error).
Notation ires := (outcome InternalError).

(** The [?] operator. *)
Definition bind {E A B : Type} (m : outcome E A) (f : A -> outcome E B) : outcome E B :=
  match m with
  | Ok a => f a
  | Err e => Err e
  | Panic => Panic
  | Diverge => Diverge
  end.

(** [Result::map_err(|_| e)]. *)
Definition map_err {E E' A : Type} (m : outcome E A) (e : E') : outcome E' A :=
  match m with
  | Ok a => Ok a
  | Err _ => Err e
  | Panic => Panic
  | Diverge => Diverge
  end.

(** [Result::unwrap]. *)
Definition unwrap {E E' A : Type} (m : outcome E A) : outcome E' A :=
  match m with
  | Ok a => Ok a
  | Err _ => Panic
  | Panic => Panic
  | Diverge => Diverge
  end.

(** [Option::unwrap]. *)
Definition unwrap_opt {E A : Type} (o : option A) : outcome E A :=
  match o with Some a => Ok a | None => Panic end.

(** [Option::ok_or(e)]. *)
Definition ok_or {E A : Type} (o : option A) (e : E) : outcome E A :=
  match o with Some a => Ok a | None => Err e end.

Declare Scope outcome_scope.
Delimit Scope outcome_scope with outcome.
Notation "x <- m ;; k" := (bind m (fun x => k))
  (at level 61, m at next level, right associativity) : outcome_scope.
Notation "' p <- m ;; k" := (bind m (fun p => k))
  (at level 61, p pattern, m at next level, right associativity) : outcome_scope.
Open Scope outcome_scope.

(** Computations with a mutable RNG ([rng: &mut R]): the state after the call
    is returned whatever the outcome is, so that theorems can speak about the
    RNG after a failed call. *)
Definition rcomp (S A : Type) : Type := S -> res A * S.

Definition rret {S A} (m : res A) : rcomp S A := fun s => (m, s).

Definition rbind {S A B} (m : rcomp S A) (f : A -> rcomp S B) : rcomp S B :=
  fun s =>
    let '(r, s') := m s in
    match r with
    | Ok a => f a s'
    | Err e => (Err e, s')
    | Panic => (Panic, s')
    | Diverge => (Diverge, s')
    end.

Definition runwrap {S A} (m : rcomp S A) : rcomp S A :=
  fun s => let '(r, s') := m s in (unwrap r, s').

Notation "x <~ m ;; k" := (rbind m (fun x => k))
  (at level 61, m at next level, right associativity) : outcome_scope.
Notation "' p <~ m ;; k" := (rbind m (fun p => k))
  (at level 61, p pattern, m at next level, right associativity) : outcome_scope.

(** [Iterator::next] on a freshly created iterator, followed by [unwrap]: the
    first item of a lazily mapped iterator. *)
Definition next_unwrap {A : Type} (items : list (res A)) : res A :=
  match items with
  | [] => Panic
  | x :: _ => x
  end.

(** [collect::<Vec<_>>()] of a lazy iterator whose items may panic when they
    are computed. *)
Fixpoint collect {E A : Type} (items : list (outcome E A)) : outcome E (list A) :=
  match items with
  | [] => Ok []
  | x :: xs => a <- x ;; l <- collect xs ;; Ok (a :: l)
  end.

(** common.rs:566-570, [i2osp_2]: [u16::try_from(input)] then
    [to_be_bytes]. *)
Definition i2osp_2 (input : N) : ires bytes :=
  if (input <=? u16_max)%N then Ok (u16_to_be_bytes input) else Err II2osp.
