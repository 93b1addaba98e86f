(** * RistrettoFacts: [Ristretto255] satisfies [GroupLaws] and [SuiteLaws]
    whenever curve25519-dalek and the hash satisfy theirs. *)
From Verif Require Export Ristretto XmdFacts.
From Verif Require Import PropSerde.
From Coq Require Import Znumtheory.
Open Scope Z_scope.

(** What is assumed of curve25519-dalek: a group of order [ell] (RFC 9496,
    section 4) with a canonical 32-byte encoding: every point has one
    encoding, and only that string decodes to it. *)
Record DalekLaws (D : Dalek) : Prop := {
  rp_eq_spec : forall P Q, rp_eq D P Q = true <-> P = Q;
  rp_add_comm : forall P Q, rp_add D P Q = rp_add D Q P;
  rp_add_assoc : forall P Q T, rp_add D P (rp_add D Q T) = rp_add D (rp_add D P Q) T;
  rp_add_id : forall P, rp_add D (rp_identity D) P = P;
  rp_mul_add : forall P a b, rp_mul D P (fadd ell a b) = rp_add D (rp_mul D P a) (rp_mul D P b);
  rp_mul_eadd : forall P Q a, rp_mul D (rp_add D P Q) a = rp_add D (rp_mul D P a) (rp_mul D Q a);
  rp_mul_mul : forall P a b, rp_mul D (rp_mul D P a) b = rp_mul D P (fmul ell a b);
  rp_mul_one : forall P, rp_mul D P (f1 ell) = P;
  rp_mul_zero : forall P, rp_mul D P (f0 ell) = rp_identity D;
  rp_generated : forall P, exists k, P = rp_mul D (rp_base D) k;
  rp_base_neq : rp_base D <> rp_identity D;
  compress_len : forall P, length (compress D P) = 32%nat;
  decompress_compress : forall P, decompress D (compress D P) = Some P;
  decompress_canonical : forall b P, length b = 32%nat -> decompress D b = Some P -> compress D P = b;
  compress_identity : compress D (rp_identity D) = repeat x00 32
}.

Lemma ell_32 : 1 < ell <= 256 ^ Z.of_nat 32.
Proof. split; [apply Z.ltb_lt|apply Z.leb_le]; vm_compute; reflexivity. Qed.

Lemma ell_fval (s : RScalar) : 0 <= fval s < ell.
Proof. apply (fval_range ell ell_prime). Qed.

Lemma fval_f0 : fval (f0 ell) = 0.
Proof. cbn [f0 of_Z fval]. apply Z.mod_0_l. pose proof ell_32. lia. Qed.

Lemma fval_nonzero (s : RScalar) : s <> f0 ell <-> 0 < fval s.
Proof.
  pose proof (ell_fval s). split.
  - intros H0. assert (fval s <> 0); [|lia]. intros E. apply H0, Fq_eq. now rewrite fval_f0.
  - intros Hs E. rewrite E, fval_f0 in Hs. lia.
Qed.

Lemma feqb_f0 (s : RScalar) : feqb ell s (f0 ell) = false <-> s <> f0 ell.
Proof.
  split.
  - intros H E. apply feqb_spec in E. congruence.
  - intros H. destruct (feqb ell s (f0 ell)) eqn:E; auto. apply feqb_spec in E. contradiction.
Qed.

Lemma le_Z_bytes x : 0 <= x < 256 ^ Z.of_nat 32 -> le_Z (le_bytes x 32) = x.
Proof. intros Hx. unfold le_Z, le_bytes. rewrite rev_involutive. now apply be_Z_to_bytes. Qed.

Lemma le_bytes_length x w : length (le_bytes x w) = w.
Proof. unfold le_bytes. now rewrite rev_length, I2OSP_length. Qed.

Lemma scalar_bytes_value (s : RScalar) : le_Z (scalar_to_bytes s) = fval s.
Proof. apply le_Z_bytes. pose proof (ell_fval s). pose proof ell_32. lia. Qed.

(** Reading scalars: exactly the 32-byte little-endian encodings of the
    numbers 1 ... ell - 1. *)
Lemma ristretto_scalar_ok b s :
  ristretto_deserialize_scalar b = Ok s <->
  length b = 32%nat /\ le_Z b = fval s /\ 0 < fval s.
Proof.
  unfold ristretto_deserialize_scalar, from_slice32, from_canonical_bytes.
  pose proof (ell_fval s) as Hs.
  destruct (Nat.eqb_spec (length b) 32) as [Hl|Hl]; [|split; [discriminate|intros [E _]; contradiction]].
  assert (H0 : 0 <= le_Z b) by (unfold le_Z; apply be_Z_range).
  destruct (Z.ltb_spec (le_Z b) ell) as [Hb|Hb].
  - cbn [opt_filter]. set (x := of_Z ell (le_Z b)).
    assert (Hx : fval x = le_Z b) by (cbn [x of_Z fval]; now apply Z.mod_small).
    destruct (feqb ell x (f0 ell)) eqn:E; cbn [negb ok_or].
    + apply feqb_spec in E. split; [discriminate|]. intros (_ & E1 & E2).
      rewrite <- E1, <- Hx, E, fval_f0 in E2. lia.
    + apply feqb_f0, fval_nonzero in E. split.
      * intros [= <-]. rewrite Hx in *. auto.
      * intros (_ & E1 & E2). assert (Hxs : x = s) by (apply Fq_eq; lia). rewrite Hxs. reflexivity.
  - cbn [opt_filter ok_or]. split; [discriminate|]. intros (_ & E & _).
    exfalso. rewrite E in Hb. apply (Z.lt_irrefl ell). now apply Z.le_lt_trans with (fval s).
Qed.

Lemma ristretto_scalar_safe b :
  match ristretto_deserialize_scalar b with
  | Ok s => s <> f0 ell | Err e => e = EDeserialization | Panic | Diverge => False
  end.
Proof.
  destruct (ristretto_deserialize_scalar b) as [s|e| |] eqn:E.
  - apply ristretto_scalar_ok in E. now apply fval_nonzero.
  - unfold ristretto_deserialize_scalar, ok_or in E.
    destruct (opt_filter _ _); [discriminate|]. now injection E.
  - unfold ristretto_deserialize_scalar, ok_or in E. destruct (opt_filter _ _); discriminate.
  - unfold ristretto_deserialize_scalar, ok_or in E. destruct (opt_filter _ _); discriminate.
Qed.

Section Points.
Context {D : Dalek} (DL : DalekLaws D).

(** Reading elements: exactly the encodings of the points other than the
    identity. *)
Lemma ristretto_elem_ok b P :
  ristretto_deserialize_elem D b = Ok P <-> b = compress D P /\ P <> rp_identity D.
Proof.
  unfold ristretto_deserialize_elem, from_slice32. split.
  - destruct (Nat.eqb_spec (length b) 32) as [Hl|Hl]; [|discriminate]. cbn [ok_or bind].
    destruct (decompress D b) as [Q|] eqn:E; [|discriminate]. cbn [opt_filter].
    destruct (rp_eq D Q (rp_identity D)) eqn:Eq; [discriminate|]. cbn. intros [= <-].
    split; [symmetry; now apply (decompress_canonical D DL)|].
    intros F. apply (rp_eq_spec D DL) in F. congruence.
  - intros [-> HP]. rewrite (compress_len D DL), Nat.eqb_refl. cbn [ok_or bind].
    rewrite (decompress_compress D DL). cbn [opt_filter].
    destruct (rp_eq D P (rp_identity D)) eqn:Eq; [apply (rp_eq_spec D DL) in Eq; contradiction|reflexivity].
Qed.

Lemma ristretto_elem_safe b :
  match ristretto_deserialize_elem D b with
  | Ok P => P <> rp_identity D | Err e => e = EDeserialization | Panic | Diverge => False
  end.
Proof.
  destruct (ristretto_deserialize_elem D b) as [s|e| |] eqn:E.
  - now apply ristretto_elem_ok in E.
  - unfold ristretto_deserialize_elem, ok_or in E. destruct (from_slice32 b); cbn in E; [|now injection E].
    destruct (opt_filter _ _); [discriminate|]. now injection E.
  - unfold ristretto_deserialize_elem, ok_or in E. destruct (from_slice32 b); cbn in E; [|discriminate].
    destruct (opt_filter _ _); discriminate.
  - unfold ristretto_deserialize_elem, ok_or in E. destruct (from_slice32 b); cbn in E; [|discriminate].
    destruct (opt_filter _ _); discriminate.
Qed.

Lemma ristretto_random_ok fuel R st :
  match fst (ristretto_random_scalar fuel R st) with
  | Ok s => s <> f0 ell | Diverge => True | Err _ | Panic => False
  end.
Proof.
  revert st. induction fuel as [|fuel IH]; intros st; cbn [ristretto_random_scalar]; [exact I|].
  destruct (dalek_scalar_random R st) as [s st'].
  destruct (feqb ell s (f0 ell)) eqn:E; cbn [negb]; [apply IH|].
  now apply feqb_f0.
Qed.

Definition ristretto_group_laws (fuel : nat) : GroupLaws (RistrettoGroup D fuel).
Proof.
  pose proof (finv_spec ell ell_prime) as Hi.
  refine {| s_one := f1 ell : Scalar (RistrettoGroup D fuel); s_opp := fopp ell; s_inv := finv ell |}.
  - exact (fq_field ell ell_prime).
  - exact (@feqb_spec ell).
  - intros a. exact (feqb_spec a (f0 ell)).
  - exact (rp_eq_spec D DL).
  - exact (rp_add_comm D DL).
  - exact (rp_add_assoc D DL).
  - exact (rp_add_id D DL).
  - exact (rp_mul_add D DL).
  - exact (rp_mul_eadd D DL).
  - exact (rp_mul_mul D DL).
  - exact (rp_mul_one D DL).
  - exact (rp_mul_zero D DL).
  - exact (rp_generated D DL).
  - exact (rp_base_neq D DL).
  - intros a _. reflexivity.
  - intros a e H. discriminate H.
  - intros R st. exact (ristretto_random_ok fuel R st).
  - discriminate.
  - intros e. unfold len. cbn [serialize_elem elem_len RistrettoGroup]. now rewrite (compress_len D DL).
  - intros s. unfold len. cbn [serialize_scalar scalar_len RistrettoGroup]. unfold scalar_to_bytes.
    now rewrite le_bytes_length.
  - intros e He. apply ristretto_elem_ok. auto.
  - cbn [serialize_elem deserialize_elem identity_elem RistrettoGroup].
    destruct (ristretto_deserialize_elem D (compress D (rp_identity D))) as [P|e| |] eqn:E.
    + apply ristretto_elem_ok in E as [E1 E2]. apply (f_equal (decompress D)) in E1.
      rewrite !(decompress_compress D DL) in E1. congruence.
    + pose proof (ristretto_elem_safe (compress D (rp_identity D))) as H. rewrite E in H. now subst.
    + pose proof (ristretto_elem_safe (compress D (rp_identity D))) as H. now rewrite E in H.
    + pose proof (ristretto_elem_safe (compress D (rp_identity D))) as H. now rewrite E in H.
  - intros s Hs. apply ristretto_scalar_ok. cbn [serialize_scalar RistrettoGroup].
    rewrite scalar_bytes_value. unfold scalar_to_bytes. rewrite le_bytes_length.
    split; [reflexivity|]. split; [reflexivity|]. now apply fval_nonzero.
  - cbn [serialize_scalar deserialize_scalar zero_scalar RistrettoGroup].
    destruct (ristretto_deserialize_scalar (scalar_to_bytes (f0 ell))) as [s|e| |] eqn:E;
      pose proof (ristretto_scalar_safe (scalar_to_bytes (f0 ell))) as H; rewrite E in H; try contradiction.
    + apply ristretto_scalar_ok in E as (_ & E1 & E2).
      rewrite scalar_bytes_value, fval_f0 in E1. lia.
    + now subst.
  - exact ristretto_elem_safe.
  - exact ristretto_scalar_safe.
Defined.

Context {H : HashFn} (HL : HashLaws H).

(** RFC 9380, appendix B, and RFC 9497, section 4.1. *)
Definition ristretto_HashToGroup (msg DST : bytes) : RPoint D :=
  from_uniform_bytes D (expand_message_xmd (digest H) (output_size H) (block_size H) msg DST 64).
Definition ristretto_HashToScalar (msg DST : bytes) : RScalar :=
  of_Z ell (le_Z (expand_message_xmd (digest H) (output_size H) (block_size H) msg DST 64)).

Lemma uniform_bytes_ok msgs tags : concat tags <> [] ->
  uniform_bytes H msgs tags
  = Ok (expand_message_xmd (digest H) (output_size H) (block_size H) (concat msgs) (concat tags) 64).
Proof.
  intros Ht. unfold uniform_bytes.
  destruct (expand_fill_ok H HL msgs tags 64 Ht) as (x & x' & E1 & E2); [apply (valid_len_small H HL); lia|].
  rewrite E1. cbn [map_err bind]. change 64%nat with (N.to_nat 64). now rewrite E2.
Qed.

Lemma uniform_bytes_empty msgs tags : concat tags = [] -> uniform_bytes H msgs tags = Err IInput.
Proof. intros Ht. unfold uniform_bytes. now rewrite (expand_message_empty_tag H). Qed.

Definition ristretto_suite_laws (fuel : nat) : SuiteLaws (RistrettoSuite D fuel H).
Proof.
  refine {| group_laws := ristretto_group_laws fuel : GroupLaws (CSGroup (RistrettoSuite D fuel H));
            HashToGroup := ristretto_HashToGroup : bytes -> bytes -> elem (RistrettoSuite D fuel H);
            HashToScalar := ristretto_HashToScalar : bytes -> bytes -> scalar (RistrettoSuite D fuel H) |}.
  - intros msgs tags Ht. cbn [hash_to_curve CSGroup CSHash RistrettoSuite RistrettoGroup].
    unfold ristretto_hash_to_curve. rewrite uniform_bytes_ok by auto. reflexivity.
  - intros msgs tags Ht. cbn [hash_to_scalar CSGroup CSHash RistrettoSuite RistrettoGroup].
    unfold ristretto_hash_to_scalar. rewrite uniform_bytes_ok by auto. reflexivity.
  - exact (hl_len H HL).
  - exact (hl_bound H HL).
  - discriminate.
Defined.

Lemma ristretto_zeroize (fuel : nat) : ZeroizeLaws (RistrettoGroup D fuel).
Proof.
  split; try reflexivity.
  exact (compress_identity D DL).
Qed.

End Points.
