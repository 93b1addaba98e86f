(** * Zq: a lawful ciphersuite for every prime.

    The additive group of integers modulo a prime [q], with its field of
    scalars, satisfies [GroupLaws]; with simple hash functions it is a
    ciphersuite satisfying [SuiteLaws].  It serves only to show that the
    hypotheses of the theorems can be met, in non-trivial cases and for
    arbitrarily large groups; it does not model a part of the crate. *)
From Verif Require Export Fq.
From Coq Require Import Znumtheory.
Open Scope Z_scope.

Section Zq.
Context (q : Z) (Hq : prime q).
Local Notation Fq := (Fq q).
Local Notation of_Z := (of_Z q).
Local Notation f0 := (f0 q).
Local Notation f1 := (f1 q).
Local Notation fadd := (fadd q).
Local Notation fsub := (fsub q).
Local Notation fopp := (fopp q).
Local Notation fmul := (fmul q).
Local Notation feqb := (feqb q).
Local Notation finv := (finv q).
Local Notation fq_ring := (fq_ring q).
Local Notation q_gt1 := (q_gt1 q Hq).
Local Notation fval_range := (fval_range q Hq).
Local Notation finv_spec := (finv_spec q Hq).
Local Notation fq_field := (fq_field q Hq).

(** [w]-byte encodings. *)
Context (w : nat) (Hw : q <= 256 ^ Z.of_nat w) (Hw2 : (N.of_nat w <= 65535)%N).

Definition fser (a : Fq) : bytes := I2OSP (Z.to_N (fval a)) w.
Definition fdes (b : bytes) : res Fq :=
  if ((length b =? w)%nat && (0 <? be_Z b) && (be_Z b <? q))%bool
  then Ok (of_Z (be_Z b)) else Err EDeserialization.

Lemma be_Z_fser a : be_Z (fser a) = fval a.
Proof.
  unfold fser. pose proof (fval_range a). rewrite be_Z_I2OSP; [lia|].
  apply N2Z.inj_lt. rewrite N2Z.inj_pow, nat_N_Z, Z2N.id by lia. simpl Z.of_N. lia.
Qed.

Lemma fdes_fser a : a <> f0 -> fdes (fser a) = Ok a.
Proof.
  intros Ha. unfold fdes. rewrite be_Z_fser. unfold fser at 1. rewrite I2OSP_length, Nat.eqb_refl.
  pose proof (fval_range a).
  assert (fval a <> 0).
  { intros E. apply Ha, Fq_eq. simpl. rewrite Z.mod_0_l by lia. exact E. }
  rewrite (proj2 (Z.ltb_lt 0 (fval a))), (proj2 (Z.ltb_lt (fval a) q)) by lia.
  simpl. now rewrite of_Z_fval.
Qed.

Lemma fdes_zero : fdes (fser f0) = Err EDeserialization.
Proof.
  unfold fdes. rewrite be_Z_fser. pose proof q_gt1. simpl fval. rewrite Z.mod_0_l by lia.
  now rewrite Bool.andb_false_r.
Qed.

Lemma fdes_safe b : match fdes b with
                    | Ok e => e <> f0 | Err e => e = EDeserialization | Panic | Diverge => False end.
Proof.
  unfold fdes. destruct (_ && _)%bool eqn:E; auto.
  apply andb_prop in E as [E E3]. apply andb_prop in E as [E1 E2].
  apply Z.ltb_lt in E2, E3. intros H. apply (f_equal fval) in H. simpl in H.
  rewrite Z.mod_0_l, Z.mod_small in H by lia. lia.
Qed.

(** Rejection sampling of a non-zero scalar, giving up after 4096 tries. *)
Fixpoint fsample (R : Rng) (fuel : nat) (st : rng_state R) : res Fq * rng_state R :=
  match fuel with
  | O => (Diverge, st)
  | S fuel =>
      let '(b, st') := fill_bytes R st w in
      match fdes b with
      | Ok s => (Ok s, st')
      | _ => fsample R fuel st'
      end
  end.

Lemma fsample_ok R fuel st :
  match fst (fsample R fuel st) with
  | Ok s => s <> f0 | Diverge => True | Err _ | Panic => False end.
Proof.
  revert st. induction fuel; intros st; simpl; auto.
  destruct (fill_bytes R st w) as [b st']. pose proof (fdes_safe b) as Hd.
  destruct (fdes b); simpl; auto; apply IHfuel.
Qed.

Arguments fsample : simpl never.

(** A polynomial hash. *)
Definition poly (m base_ modulus init : Z) (b : bytes) : Z :=
  fold_left (fun acc x => (acc * base_ + Z.of_N (Byte.to_N x) + m) mod modulus) b init.

Definition hashZ (salt : Z) (msg tag : bytes) : Z :=
  poly 1 257 4294967291 (poly salt 263 4294967291 salt tag) msg.

(** A group over [Fq]; the hash functions accept any non-empty tag,
    like the [expand_message_xmd] of the built-in groups. *)
Definition ZqGroup : Group := {|
  Elem := Fq; Scalar := Fq;
  elem_len := N.of_nat w; scalar_len := N.of_nat w;
  elem_ct_eq := feqb; elem_add := fadd; elem_mul := fmul; zeroize_elem := fun _ => f0;
  scalar_ct_eq := feqb; scalar_add := fadd; scalar_mul := fmul; scalar_sub := fsub;
  zeroize_scalar := fun _ => f0;
  hash_to_curve := fun _ msgs dst =>
    match concat dst with [] => Err IInput | _ => Ok (of_Z (hashZ 3 (concat msgs) (concat dst))) end;
  hash_to_scalar := fun _ msgs dst =>
    match concat dst with [] => Err IInput | _ => Ok (of_Z (hashZ 5 (concat msgs) (concat dst))) end;
  base_elem := f1; identity_elem := f0;
  serialize_elem := fser; deserialize_elem := fdes;
  random_scalar := fun R => fsample R 4096;
  invert_scalar := fun a => if feqb a f0 then Panic else Ok (finv a);
  is_zero_scalar := fun a => feqb a f0;
  zero_scalar := f0;
  serialize_scalar := fser; deserialize_scalar := fdes
|}.

Lemma fser_len a : len (fser a) = N.of_nat w.
Proof. unfold len, fser. now rewrite I2OSP_length. Qed.

Add Ring fq_ring_inst : fq_ring.

Definition ZqGroupLaws : GroupLaws ZqGroup.
Proof.
  refine {| s_one := f1 : Scalar ZqGroup; s_opp := fopp; s_inv := finv |}; simpl.
  - apply fq_field.
  - apply feqb_spec.
  - intros a. apply feqb_spec.
  - apply feqb_spec.
  - intros. ring.
  - intros. ring.
  - intros. ring.
  - intros. ring.
  - intros. ring.
  - intros. ring.
  - intros. ring.
  - intros. ring.
  - intros P. exists P. ring.
  - apply (F_1_neq_0 fq_field).
  - intros a Ha. destruct (feqb a f0) eqn:E; auto. apply feqb_spec in E. contradiction.
  - intros a e. destruct (feqb a f0); discriminate.
  - intros R st. apply (fsample_ok R 4096 st).
  - exact Hw2.
  - apply fser_len.
  - apply fser_len.
  - apply fdes_fser.
  - apply fdes_zero.
  - apply fdes_fser.
  - apply fdes_zero.
  - apply fdes_safe.
  - apply fdes_safe.
Defined.

Definition ZqHash : HashFn := {|
  digest := fun m => I2OSP (Z.to_N (hashZ 7 m [])) 4;
  output_size := 4; block_size := 64
|}.

Definition ZqSuite : CipherSuite := {|
  ID := str "Zq-TOY"; CSGroup := ZqGroup; CSHash := ZqHash
|}.

Definition ZqLaws : SuiteLaws ZqSuite.
Proof.
  refine {|
    group_laws := ZqGroupLaws : GroupLaws (CSGroup ZqSuite);
    HashToGroup := fun m t => of_Z (hashZ 3 m t) : elem ZqSuite;
    HashToScalar := fun m t => of_Z (hashZ 5 m t) : scalar ZqSuite |}.
  - intros msgs tags Ht. cbn. destruct (concat tags); [contradiction|reflexivity].
  - intros msgs tags Ht. cbn. destruct (concat tags); [contradiction|reflexivity].
  - intros m. unfold len. unfold ZqSuite, ZqHash. cbn [CSHash digest]. now rewrite I2OSP_length.
  - reflexivity.
  - vm_compute. discriminate.
Defined.

End Zq.

(** A concrete instance: q = 251, one byte per scalar and element. *)
Lemma prime_251 : prime 251.
Proof.
  apply prime_alt. split; [lia|]. intros n Hn [k Hk].
  assert (Hs : (n <= 15 \/ k <= 15)%Z).
  { destruct (Z_le_gt_dec n 15), (Z_le_gt_dec k 15); auto; nia. }
  assert (1 < k < 251) by nia.
  assert (Hno : forall a b, 1 < a <= 15 -> 1 < b < 251 -> 251 <> a * b).
  { intros a b Ha Hb E.
    assert (a = 2 \/ a = 3 \/ a = 4 \/ a = 5 \/ a = 6 \/ a = 7 \/ a = 8 \/ a = 9 \/ a = 10 \/
            a = 11 \/ a = 12 \/ a = 13 \/ a = 14 \/ a = 15) as Hc by lia.
    repeat (destruct Hc as [->|Hc]; [lia|]). subst. lia. }
  destruct Hs.
  - apply (Hno n k); lia.
  - apply (Hno k n); lia.
Qed.

Lemma w_251 : 251 <= 256 ^ Z.of_nat 1. Proof. simpl. lia. Qed.
Lemma w1_bound : (N.of_nat 1 <= 65535)%N. Proof. simpl. lia. Qed.

Definition TS : CipherSuite := ZqSuite 251 1.
Definition TL : SuiteLaws TS := ZqLaws 251 prime_251 1 w_251 w1_bound.

(** A counter RNG: every byte drawn is the next value of a counter. *)
Fixpoint ctr_bytes (n : nat) (st : N) : bytes * N :=
  match n with
  | O => ([], st)
  | S n => let '(l, st') := ctr_bytes n (st + 1)%N in (byte_of_N st :: l, st')
  end.
Definition CtrRng : Rng := {| rng_state := N; fill_bytes := fun st n => ctr_bytes n st |}.
