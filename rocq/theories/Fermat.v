(** * Fermat: Fermat's little theorem over [Z].

    Library mathematics; models no code. *)
From Coq Require Import ZArith Znumtheory Lia List Permutation.
Import ListNotations.
Open Scope Z_scope.

Definition zprod (l : list Z) : Z := fold_right Z.mul 1 l.

Lemma zprod_perm l l' : Permutation l l' -> zprod l = zprod l'.
Proof. unfold zprod. induction 1; cbn [fold_right]; lia. Qed.

Section Fermat.
Context (p : Z) (Hp : prime p).

Definition residues : list Z := map Z.of_nat (seq 1 (Z.to_nat (p - 1))).

Lemma residues_in x : In x residues <-> 1 <= x < p.
Proof.
  assert (1 < p) by (destruct Hp; auto).
  unfold residues. rewrite in_map_iff. split.
  - intros (n & <- & Hn). apply in_seq in Hn. lia.
  - intros Hx. exists (Z.to_nat x). split; [lia|]. apply in_seq. lia.
Qed.

Lemma zprod_map_mod a l : zprod (map (fun x => (a * x) mod p) l) mod p = (a ^ Z.of_nat (length l) * zprod l) mod p.
Proof.
  assert (1 < p) by (destruct Hp; auto). unfold zprod.
  induction l as [|x l IH]; [reflexivity|]. cbn [map fold_right length].
  rewrite Nat2Z.inj_succ, Z.pow_succ_r by lia.
  rewrite Zmult_mod_idemp_l, <- Zmult_mod_idemp_r, IH, Zmult_mod_idemp_r. f_equal. ring.
Qed.

Lemma zprod_coprime l : (forall x, In x l -> ~ (p | x)) -> ~ (p | zprod l).
Proof.
  assert (1 < p) by (destruct Hp; auto). unfold zprod.
  induction l as [|x l IH]; cbn [fold_right]; intros Hl Hd.
  - apply Z.divide_1_r_nonneg in Hd; lia.
  - apply prime_mult in Hd; auto. destruct Hd as [Hd|Hd]; [now apply (Hl x); [left|]|].
    apply IH; auto. intros y Hy. apply Hl. now right.
Qed.

Theorem fermat_one a : ~ (p | a) -> a ^ (p - 1) mod p = 1.
Proof.
  intros Ha. assert (Hp1 : 1 < p) by (destruct Hp; auto).
  assert (Hno : forall x, 1 <= x < p -> ~ (p | x)).
  { intros x Hx Hd. apply Z.divide_pos_le in Hd; lia. }
  assert (HP : Permutation (map (fun x => (a * x) mod p) residues) residues).
  { apply NoDup_Permutation_bis.
    - assert (Hnd : NoDup residues).
      { unfold residues. apply FinFun.Injective_map_NoDup; [|apply seq_NoDup]. intros x y. lia. }
      assert (Hin : forall x, In x residues -> 1 <= x < p) by apply residues_in.
      revert Hnd Hin. generalize residues. induction l as [|x l IH]; intros Hnd Hin; [constructor|].
      inversion Hnd as [|? ? Hx Hl]; subst. cbn. constructor; [|apply IH; auto; intros; apply Hin; now right].
      intros Hm. apply in_map_iff in Hm as (y & E & Hy). apply Hx.
      replace x with y; auto.
      assert (Hd : (p | a * (y - x))).
      { apply Z.mod_divide; [lia|]. rewrite Z.mul_sub_distr_l, Zminus_mod, E, Z.sub_diag.
        apply Z.mod_0_l. lia. }
      apply prime_mult in Hd; auto. destruct Hd as [Hd|Hd]; [contradiction|].
      assert (1 <= x < p) by (apply Hin; now left).
      assert (1 <= y < p) by (apply Hin; now right).
      destruct (Z.eq_dec y x); auto. exfalso.
      destruct Hd as [k Hk]. assert (k = 0 \/ k >= 1 \/ k <= -1) by lia. nia.
    - now rewrite map_length.
    - intros y Hy. apply in_map_iff in Hy as (x & <- & Hx). apply residues_in in Hx.
      apply residues_in. pose proof (Z.mod_pos_bound (a * x) p ltac:(lia)) as Hb.
      assert ((a * x) mod p <> 0); [|lia]. intros E. apply Z.mod_divide in E; [|lia].
      apply prime_mult in E; auto. destruct E as [E|E]; [contradiction|]. now apply (Hno x). }
  apply zprod_perm in HP. pose proof (zprod_map_mod a residues) as Hm. rewrite HP in Hm.
  assert (Hl : Z.of_nat (length residues) = p - 1).
  { unfold residues. rewrite map_length, seq_length. lia. }
  rewrite Hl in Hm.
  assert (Hd : (p | (a ^ (p - 1) - 1) * zprod residues)).
  { apply Z.mod_divide; [lia|]. rewrite Z.mul_sub_distr_r, Z.mul_1_l, Zminus_mod, <- Hm, Z.sub_diag.
    apply Z.mod_0_l. lia. }
  apply prime_mult in Hd; auto. destruct Hd as [[k Hk]|Hd].
  - replace (a ^ (p - 1)) with (1 + k * p) by lia. rewrite Z_mod_plus_full. apply Z.mod_1_l. lia.
  - exfalso. revert Hd. apply zprod_coprime. intros x Hx. apply Hno. now apply residues_in.
Qed.

End Fermat.
