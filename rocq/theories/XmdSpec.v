(** * XmdSpec: expand_message_xmd, written from RFC 9380, section 5.3.

    Uses no definition of the model. *)
From Verif Require Export Spec.

(** strxor of two strings of equal length (RFC 9380, section 4). *)
Fixpoint strxor (a b : bytes) : bytes :=
  match a, b with
  | x :: a, y :: b =>
      match Byte.of_N (N.lxor (Byte.to_N x) (Byte.to_N y)) with Some z => z | None => x00 end
      :: strxor a b
  | _, _ => []
  end.

(** RFC 9380, section 5.3.3: tags longer than 255 bytes are hashed. *)
Definition effective_DST (H : bytes -> bytes) (DST : bytes) : bytes :=
  if (255 <? N.of_nat (length DST))%N then H (str "H2C-OVERSIZE-DST-" ++ DST) else DST.

(** RFC 9380, section 5.3.1.  [b_in_bytes] and [s_in_bytes] are the output
    and block size of [H]. *)
Section Expand.
Context (H : bytes -> bytes) (b_in_bytes s_in_bytes : N).

Definition DST_prime (DST : bytes) : bytes :=
  let D := effective_DST H DST in D ++ I2OSP (N.of_nat (length D)) 1.

Definition xmd_b0 (msg DST : bytes) (len_in_bytes : N) : bytes :=
  H (I2OSP 0 (N.to_nat s_in_bytes) ++ msg ++ I2OSP len_in_bytes 2 ++ I2OSP 0 1 ++ DST_prime DST).

(** b_(i) for i >= 1: [xmd_b DST b0 i] is the block number i + 1. *)
Fixpoint xmd_b (DST b0 : bytes) (i : nat) : bytes :=
  match i with
  | O => H (b0 ++ I2OSP 1 1 ++ DST_prime DST)
  | S j => H (strxor b0 (xmd_b DST b0 j) ++ I2OSP (N.of_nat i + 1) 1 ++ DST_prime DST)
  end.

Definition xmd_ell (len_in_bytes : N) : N := ((len_in_bytes + b_in_bytes - 1) / b_in_bytes)%N.

Definition expand_message_xmd (msg DST : bytes) (len_in_bytes : N) : bytes :=
  let b0 := xmd_b0 msg DST len_in_bytes in
  firstn (N.to_nat len_in_bytes)
    (concat (map (xmd_b DST b0) (seq 0 (N.to_nat (xmd_ell len_in_bytes))))).

End Expand.
