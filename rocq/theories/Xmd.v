(** * Xmd: the expand_message_xmd that both group implementations call.

    group/ristretto.rs:53-56 and 70-73 call [ExpandMsgXmd::<H>::expand_message]
    and [fill_bytes]; group/elliptic_curve.rs:49 and 58 reach them through
    [GroupDigest].  The code is in the crate elliptic-curve 0.13, module
    hash2curve; it is not in /repo and is modelled from its published source.
    An [ExpanderXmd] is a state machine that hands out bytes one at a time and
    hashes the next block when the current one is used up. *)
From Verif Require Export Common.

Definition xor_byte (a b : byte) : byte := byte_of_N (N.lxor (Byte.to_N a) (Byte.to_N b)).
Definition xor_bytes (a b : bytes) : bytes := map (fun '(x, y) => xor_byte x y) (combine a b).

(** elliptic-curve, hash2curve/hash2field/expand_msg.rs: [MAX_DST_LEN],
    [OVERSIZE_DST_SALT]. *)
Definition MAX_DST_LEN : N := 255.
Definition OVERSIZE_DST_SALT : bytes := bstr "H2C-OVERSIZE-DST-".

(** [enum Domain]: the tag slices, or the hash of an oversize tag. *)
Inductive Domain : Type :=
| DHashed (d : bytes)
| DArray (ds : list bytes).

(** [Domain::xmd]: an empty tag is an error. *)
Definition domain_xmd (H : HashFn) (dsts : list bytes) : ires Domain :=
  if (len (concat dsts) =? 0)%N then Err IInput
  else if (MAX_DST_LEN <? len (concat dsts))%N then
    Ok (DHashed (finalize_hash H (chain_update_multi (chain_update hash_new OVERSIZE_DST_SALT) dsts)))
  else Ok (DArray dsts).

(** [Domain::update_hash], followed everywhere by the update with
    [Domain::len]. *)
Definition domain_update (h : hasher) (d : Domain) : hasher :=
  match d with
  | DHashed d => chain_update (chain_update h d) (u8_to_be_bytes (len d))
  | DArray ds => chain_update (chain_update_multi h ds) (u8_to_be_bytes (len (concat ds)))
  end.

(** hash2curve/hash2field/expand_msg/xmd.rs: [struct ExpanderXmd]. *)
Record Expander : Type := mkExpander {
  x_b_0 : bytes;
  x_b_vals : bytes;
  x_domain : Domain;
  x_index : N;
  x_offset : nat;
  x_ell : N
}.

(** [ExpandMsgXmd::expand_message].  The division is by the output size of
    the hash, which is not zero. *)
Definition expand_message (H : HashFn) (msgs dsts : list bytes) (len_in_bytes : N) : ires Expander :=
  if (len_in_bytes =? 0)%N || (u16_max <? len_in_bytes)%N then Err IInput else
  let ell := ((len_in_bytes + output_size H - 1) / output_size H)%N in
  if (255 <? ell)%N then Err IInput else
  domain <- domain_xmd H dsts ;;
  let b_0 := finalize_hash H
    (domain_update
       (chain_update
          (chain_update
             (chain_update_multi (chain_update hash_new (repeat x00 (N.to_nat (block_size H)))) msgs)
             (u16_to_be_bytes len_in_bytes))
          [x00])
       domain) in
  let b_vals := finalize_hash H
    (domain_update (chain_update (chain_update hash_new b_0) [x01]) domain) in
  Ok (mkExpander b_0 b_vals domain 1 0 ell).

(** [ExpanderXmd::next]: [None] when all [ell] blocks are used up. *)
Definition expander_next (H : HashFn) (x : Expander) : option Expander :=
  if (x_index x <? x_ell x)%N then
    let index := (x_index x + 1)%N in
    let b_vals := finalize_hash H
      (domain_update
         (chain_update (chain_update hash_new (xor_bytes (x_b_0 x) (x_b_vals x)))
            (u8_to_be_bytes index))
         (x_domain x)) in
    Some (mkExpander (x_b_0 x) b_vals (x_domain x) index 0 (x_ell x))
  else None.

(** [Expander::fill_bytes] on a zeroed buffer of [n] bytes: returns early
    (leaving zeros) when the blocks are used up. *)
Fixpoint expander_fill (H : HashFn) (x : Expander) (n : nat) : bytes * Expander :=
  match n with
  | O => ([], x)
  | S n' =>
      let ready :=
        if (x_offset x =? length (x_b_vals x))%nat then expander_next H x else Some x in
      match ready with
      | None => (repeat x00 n, x)
      | Some x =>
          let b := nth (x_offset x) (x_b_vals x) x00 in
          let '(rest, x') := expander_fill H
            (mkExpander (x_b_0 x) (x_b_vals x) (x_domain x) (x_index x) (S (x_offset x)) (x_ell x)) n' in
          (b :: rest, x')
      end
  end.
