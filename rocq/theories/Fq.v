(** * Fq: the integers modulo a prime, and big- and little-endian bytes.

    Used twice: as the scalar fields of the two group implementations
    ([Ristretto], [EllipticCurve]), whose libraries store a scalar as a number
    below the group order, and for the toy ciphersuite of [Zq]. *)
From Verif Require Export Laws BytesFacts.
From Coq Require Import Znumtheory Eqdep_dec.
Open Scope Z_scope.

Section Fq.
Context (q : Z) (Hq : prime q).

Record Fq : Type := mkFq { fval : Z; frange : (fval mod q =? fval) = true }.

Lemma q_gt1 : 1 < q. Proof. destruct Hq; auto. Qed.

Lemma Fq_eq (a b : Fq) : fval a = fval b -> a = b.
Proof.
  destruct a as [a Ha], b as [b Hb]. simpl. intros ->. f_equal.
  apply UIP_dec, Bool.bool_dec.
Qed.

Lemma of_Z_range z : ((z mod q) mod q =? z mod q) = true.
Proof. apply Z.eqb_eq, Zmod_mod. Qed.
Definition of_Z (z : Z) : Fq := mkFq (z mod q) (of_Z_range z).

Lemma of_Z_eq a b : a mod q = b mod q -> of_Z a = of_Z b.
Proof. intros H. apply Fq_eq. exact H. Qed.

Lemma fval_mod a : fval a mod q = fval a.
Proof. apply Z.eqb_eq, frange. Qed.

Lemma fval_range a : 0 <= fval a < q.
Proof. rewrite <- fval_mod. apply Z.mod_pos_bound. pose proof q_gt1. lia. Qed.

Lemma of_Z_fval a : of_Z (fval a) = a.
Proof. apply Fq_eq. simpl. apply fval_mod. Qed.

Definition f0 : Fq := of_Z 0.
Definition f1 : Fq := of_Z 1.
Definition fadd a b : Fq := of_Z (fval a + fval b).
Definition fsub a b : Fq := of_Z (fval a - fval b).
Definition fopp a : Fq := of_Z (- fval a).
Definition fmul a b : Fq := of_Z (fval a * fval b).
Definition feqb a b : bool := (fval a =? fval b)%Z.

(** The inverse: the extended Euclidean algorithm, whose answer is checked;
    if the check fails (it does not, but this needs no proof) the inverse is
    found by search.  The inverse of 0 is 0. *)
Fixpoint egcd (fuel : nat) (r0 r1 t0 t1 : Z) : Z :=
  match fuel with
  | O => t0
  | S fuel => if r1 =? 0 then t0 else egcd fuel r1 (r0 mod r1) t1 (t0 - (r0 / r1) * t1)
  end.
Definition inv_search (a : Z) : Z :=
  match find (fun b => (a * b) mod q =? 1) (map Z.of_nat (seq 1 (Z.to_nat q))) with
  | Some b => b
  | None => 0
  end.
Definition finv_search (a : Z) : Z :=
  if a =? 0 then 0 else
  let t := egcd (2 * Z.to_nat (Z.log2 q) + 4) q a 0 1 in
  if (a * t) mod q =? 1 then t else inv_search a.
Definition finv a : Fq := of_Z (finv_search (fval a)).

Lemma feqb_spec a b : feqb a b = true <-> a = b.
Proof. unfold feqb. rewrite Z.eqb_eq. split; [apply Fq_eq|congruence]. Qed.

Ltac fq := intros; unfold fadd, fsub, fopp, fmul, f0, f1; apply Fq_eq; simpl;
  rewrite ?Zplus_mod_idemp_l, ?Zplus_mod_idemp_r, ?Zmult_mod_idemp_l, ?Zmult_mod_idemp_r,
          ?Zminus_mod_idemp_l, ?Zminus_mod_idemp_r.

Lemma fq_ring : ring_theory f0 f1 fadd fmul fsub fopp (@eq Fq).
Proof.
  constructor.
  - intros x. rewrite <- (of_Z_fval x) at 2. fq. f_equal.
  - fq. f_equal. lia.
  - fq. f_equal. lia.
  - intros x. rewrite <- (of_Z_fval x) at 2. fq. f_equal. lia.
  - fq. f_equal. lia.
  - fq. f_equal. lia.
  - fq. f_equal. lia.
  - fq. f_equal.
  - fq. f_equal. lia.
Qed.

Lemma finv_spec a : a <> f0 -> fmul (finv a) a = f1.
Proof.
  intros Ha. pose proof q_gt1.
  assert (Hex : exists b, In b (map Z.of_nat (seq 1 (Z.to_nat q))) /\ (fval a * b) mod q = 1).
  { pose proof (fval_range a) as Hr.
    assert (Hnz : fval a <> 0).
    { intros E. apply Ha, Fq_eq. simpl. rewrite Z.mod_0_l by lia. exact E. }
    assert (Hrel : rel_prime q (fval a)).
    { apply prime_rel_prime; auto. intros Hd.
      apply Zdivide_mod in Hd. rewrite fval_mod in Hd. contradiction. }
    apply rel_prime_bezout in Hrel. destruct Hrel as [u v Huv].
    exists (v mod q). split.
    - assert (Hv : 0 <= v mod q < q) by (apply Z.mod_pos_bound; lia).
      assert (v mod q <> 0).
      { intros E. assert (Hm : (u * q + v * fval a) mod q = 1 mod q) by now rewrite Huv.
        rewrite Z.add_comm, Z.mod_add in Hm by lia.
        rewrite <- Zmult_mod_idemp_l, E, Z.mul_0_l, Z.mod_0_l, Z.mod_1_l in Hm by lia. lia. }
      apply in_map_iff. exists (Z.to_nat (v mod q)). split; [lia|]. apply in_seq. lia.
    - rewrite Zmult_mod_idemp_r.
      replace (fval a * v) with (1 + (- u) * q) by lia.
      rewrite Z.mod_add by lia. apply Z.mod_1_l. lia. }
  destruct Hex as (b & Hin & Hb).
  unfold finv, fmul. fq. unfold finv_search.
  destruct (Z.eqb_spec (fval a) 0) as [E0|E0].
  { rewrite E0, Z.mul_0_l, Z.mod_0_l in Hb by lia. discriminate. }
  cbv zeta. set (t := egcd _ _ _ _ _).
  destruct (Z.eqb_spec ((fval a * t) mod q) 1) as [Et|Et].
  { rewrite Z.mul_comm, Et. symmetry. apply Z.mod_1_l. lia. }
  unfold inv_search. destruct (find _ _) as [b'|] eqn:E.
  - apply find_some in E as [_ E]. apply Z.eqb_eq in E.
    rewrite Z.mul_comm, E. symmetry. apply Z.mod_1_l. lia.
  - apply (find_none _ _ E) in Hin. rewrite Hb in Hin. discriminate.
Qed.

Lemma finv_zero : finv f0 = f0.
Proof. apply Fq_eq. unfold finv, finv_search. simpl. rewrite Z.mod_0_l by (pose proof q_gt1; lia). reflexivity. Qed.

Lemma fq_field : field_theory f0 f1 fadd fmul fsub fopp (fun a b => fmul a (finv b)) finv (@eq Fq).
Proof.
  constructor.
  - apply fq_ring.
  - intros E. apply (f_equal fval) in E. simpl in E. pose proof q_gt1.
    rewrite Z.mod_1_l, Z.mod_0_l in E by lia. lia.
  - reflexivity.
  - intros. now apply finv_spec.
Qed.

End Fq.
Arguments fval {q} _.
Arguments Fq_eq {q} _ _ _.
Arguments of_Z_fval {q} _.
Arguments feqb_spec {q} _ _.
Arguments fval_mod {q} _.

(** Big-endian reading of a byte string. *)
Definition be_Z (b : bytes) : Z := fold_left (fun acc x => acc * 256 + Z.of_N (Byte.to_N x)) b 0.

Lemma be_Z_snoc b x : be_Z (b ++ [x]) = be_Z b * 256 + Z.of_N (Byte.to_N x).
Proof. unfold be_Z. now rewrite fold_left_app. Qed.

Lemma be_Z_I2OSP w : forall x, (x < 256 ^ N.of_nat w)%N -> be_Z (I2OSP x w) = Z.of_N x.
Proof.
  induction w; intros x Hx.
  - simpl in *. assert (x = 0)%N by lia. subst. reflexivity.
  - rewrite Nat2N.inj_succ, N.pow_succ_r' in Hx. cbn [I2OSP]. rewrite be_Z_snoc, IHw.
    + change (match Byte.of_N (x mod 256) with Some b => b | None => x00 end)
        with (byte_of_N x). rewrite <- byte_of_N_mod.
      rewrite byte_of_N_small by (apply N.mod_lt; lia).
      rewrite (N.div_mod x 256) at 3 by lia. lia.
    + apply N.div_lt_upper_bound; lia.
Qed.


Lemma be_Z_cons x b : be_Z (x :: b) = Z.of_N (Byte.to_N x) * 256 ^ Z.of_nat (length b) + be_Z b.
Proof.
  induction b as [|y b IH] using rev_ind; [unfold be_Z; simpl; lia|].
  rewrite app_comm_cons, !be_Z_snoc, IH, app_length. cbn [length].
  rewrite Nat2Z.inj_add, Z.pow_add_r by lia. change (256 ^ Z.of_nat 1) with 256. ring.
Qed.

Lemma byte_range x : 0 <= Z.of_N (Byte.to_N x) < 256.
Proof. destruct x; cbn; lia. Qed.

Lemma be_Z_range b : 0 <= be_Z b < 256 ^ Z.of_nat (length b).
Proof.
  induction b as [|x b IH] using rev_ind; [cbn; lia|].
  rewrite be_Z_snoc, app_length. cbn [length]. rewrite Nat2Z.inj_add, Z.pow_add_r by lia.
  change (256 ^ Z.of_nat 1) with 256. pose proof (byte_range x). nia.
Qed.

Lemma be_Z_zeros n b : be_Z (repeat x00 n ++ b) = be_Z b.
Proof. induction n as [|n IH]; [reflexivity|]. cbn [repeat app]. rewrite be_Z_cons, IH. cbn. lia. Qed.

(** Reading is injective on strings of one length. *)
Lemma be_Z_inj a : forall b, length a = length b -> be_Z a = be_Z b -> a = b.
Proof.
  induction a as [|x a IH] using rev_ind; intros b Hl H.
  - destruct b; [reflexivity|discriminate].
  - destruct b as [|y b _] using rev_ind; [rewrite app_length in Hl; cbn in Hl; lia|].
    rewrite !app_length in Hl. cbn in Hl. rewrite !be_Z_snoc in H.
    pose proof (byte_range x). pose proof (byte_range y).
    assert (E1 : be_Z a = be_Z b) by lia. assert (E2 : Byte.to_N x = Byte.to_N y) by lia.
    f_equal; [apply IH; auto; lia|]. f_equal.
    apply (f_equal Byte.of_N) in E2. rewrite !Byte.of_to_N in E2. congruence.
Qed.

(** Encoding a number below [256 ^ w]. *)
Lemma be_Z_to_bytes w x : 0 <= x < 256 ^ Z.of_nat w -> be_Z (I2OSP (Z.to_N x) w) = x.
Proof.
  intros Hx. rewrite be_Z_I2OSP; [lia|].
  apply N2Z.inj_lt. rewrite N2Z.inj_pow, nat_N_Z, Z2N.id by lia. exact (proj2 Hx).
Qed.

Lemma of_Z_be w (q : Z) b : length b = w -> 0 <= be_Z b < q ->
  fval (of_Z q (be_Z b)) = be_Z b.
Proof. intros Hl Hb. cbn. now apply Z.mod_small. Qed.
