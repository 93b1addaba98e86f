(** * Cyclic: multiples in a commutative group, and a criterion for being
    generated by one element.

    If [g] has prime order [n], the group has fewer than [3 n] elements and no
    element of order two, then every element is a multiple of [g]. *)
From Coq Require Import ZArith Znumtheory List Lia FinFun.
Import ListNotations.
Open Scope Z_scope.

Section Mult.
Context {A : Type} (add : A -> A -> A) (zero : A).

(** Double and add. *)
Fixpoint pmul (e : positive) (P : A) : A :=
  match e with
  | xH => P
  | xO e => let Q := pmul e P in add Q Q
  | xI e => let Q := pmul e P in add (add Q Q) P
  end.
Definition zmul (k : Z) (P : A) : A :=
  match k with Zpos e => pmul e P | _ => zero end.

Context (add_comm : forall P Q, add P Q = add Q P).
Context (add_assoc : forall P Q T, add (add P Q) T = add P (add Q T)).
Context (add_zero : forall P, add zero P = P).

Fixpoint nmul (k : nat) (P : A) : A :=
  match k with O => zero | S k => add P (nmul k P) end.

Lemma add_zero_r P : add P zero = P.
Proof. rewrite add_comm. apply add_zero. Qed.

Lemma nmul_add j k P : nmul (j + k) P = add (nmul j P) (nmul k P).
Proof.
  induction j as [|j IH]; cbn; [now rewrite add_zero|]. rewrite IH. now rewrite add_assoc.
Qed.

Lemma nmul_zero k : nmul k zero = zero.
Proof. induction k as [|k IH]; cbn; [reflexivity|]. now rewrite IH, add_zero. Qed.

Lemma add_swap P Q T U : add (add P Q) (add T U) = add (add P T) (add Q U).
Proof. rewrite !add_assoc. f_equal. rewrite <- !add_assoc. f_equal. apply add_comm. Qed.

Lemma nmul_dist k P Q : nmul k (add P Q) = add (nmul k P) (nmul k Q).
Proof. induction k as [|k IH]; cbn; [now rewrite add_zero|]. rewrite IH. apply add_swap. Qed.

Lemma nmul_mul j k P : nmul j (nmul k P) = nmul (j * k) P.
Proof. induction j as [|j IH]; cbn; [reflexivity|]. now rewrite IH, nmul_add. Qed.

Lemma pmul_nmul e P : pmul e P = nmul (Pos.to_nat e) P.
Proof.
  induction e as [e IH|e IH|]; cbn [pmul].
  - rewrite IH, Pos2Nat.inj_xI. cbn [nmul]. rewrite <- nmul_add, add_comm. f_equal. f_equal. lia.
  - rewrite IH, Pos2Nat.inj_xO, <- nmul_add. f_equal. lia.
  - change (P = add P zero). symmetry. apply add_zero_r.
Qed.

Lemma zmul_nmul k P : zmul k P = nmul (Z.to_nat k) P.
Proof. destruct k; cbn; auto. apply pmul_nmul. Qed.

Lemma zmul_add j k P : 0 <= j -> 0 <= k -> zmul (j + k) P = add (zmul j P) (zmul k P).
Proof. intros Hj Hk. rewrite !zmul_nmul, Z2Nat.inj_add by lia. apply nmul_add. Qed.

Lemma zmul_mul j k P : 0 <= j -> 0 <= k -> zmul j (zmul k P) = zmul (j * k) P.
Proof. intros Hj Hk. rewrite !zmul_nmul, Z2Nat.inj_mul by lia. apply nmul_mul. Qed.

Lemma zmul_dist k P Q : zmul k (add P Q) = add (zmul k P) (zmul k Q).
Proof. rewrite !zmul_nmul. apply nmul_dist. Qed.

Lemma zmul_zero k : zmul k zero = zero.
Proof. rewrite zmul_nmul. apply nmul_zero. Qed.

Lemma zmul_one P : zmul 1 P = P.
Proof. reflexivity. Qed.

Lemma zmul_mod n k P : 0 < n -> 0 <= k -> zmul n P = zero -> zmul (k mod n) P = zmul k P.
Proof.
  intros Hn Hk E. rewrite (Z.div_mod k n) at 2 by lia.
  assert (0 <= k mod n) by (apply Z.mod_pos_bound; lia).
  assert (0 <= k / n) by (apply Z.div_pos; lia).
  rewrite zmul_add by nia.
  rewrite Z.mul_comm, <- zmul_mul, E, zmul_zero, add_zero by lia. reflexivity.
Qed.

(** ** Generation *)
Context (neg : A -> A) (add_neg : forall P, add P (neg P) = zero).
Context (dec : forall P Q : A, {P = Q} + {P <> Q}).
Context (code : A -> Z) (N : Z) (code_range : forall P, 0 <= code P < N)
        (code_inj : forall P Q, code P = code Q -> P = Q).
Context (no_two : forall P, add P P = zero -> P = zero).
Context (n : Z) (g : A) (n_prime : prime n) (n_odd : n <> 2).
Context (n_g : zmul n g = zero) (g_neq : g <> zero) (small : N < 3 * n).

Let n_gt1 : 1 < n. Proof. now destruct n_prime. Qed.

Lemma cancel_l P Q T : add P Q = add P T -> Q = T.
Proof.
  intros E. rewrite <- (add_zero Q), <- (add_zero T), <- (add_neg P), (add_comm P), !add_assoc. now rewrite E.
Qed.

Lemma zmul_g_inj_lt i j : 0 <= i -> i < j -> j < n -> zmul i g <> zmul j g.
Proof.
  intros Hi Hij Hj E. apply g_neq.
  replace j with (i + (j - i)) in E by lia. rewrite zmul_add in E by lia.
  rewrite <- (add_zero_r (zmul i g)) in E at 1. apply cancel_l in E. symmetry in E.
  set (d := j - i) in *.
  assert (Hr : rel_prime d n).
  { apply rel_prime_sym, prime_rel_prime; auto. intros Hd. apply Zdivide_le in Hd; lia. }
  apply rel_prime_bezout in Hr. destruct Hr as [u v Huv].
  (* a coefficient that is not negative *)
  assert (Hw : exists u', 0 <= u' /\ exists w, 0 <= w /\ u' * d = 1 + w * n).
  { exists (u mod n). assert (Hu : 0 <= u mod n < n) by (apply Z.mod_pos_bound; lia). split; [lia|].
    assert (Hq : u mod n * d = 1 + (- v - u / n * d) * n).
    { rewrite Z.mod_eq by lia. nia. }
    exists (- v - u / n * d). split; [|exact Hq]. nia. }
  destruct Hw as (u' & Hu' & w & Hw & Eq).
  assert (E1 : zmul (u' * d) g = zero) by (rewrite <- zmul_mul, E by lia; apply zmul_zero).
  rewrite Eq, zmul_add, <- zmul_mul, n_g, zmul_zero, add_zero_r in E1 by nia. exact E1.
Qed.

Lemma zmul_g_inj i j : 0 <= i < n -> 0 <= j < n -> zmul i g = zmul j g -> i = j.
Proof.
  intros Hi Hj E. destruct (Z_lt_le_dec i j) as [H|H]; [elim (zmul_g_inj_lt i j); auto; lia|].
  destruct (Z_lt_le_dec j i) as [H'|H']; [|lia]. elim (zmul_g_inj_lt j i); auto; lia.
Qed.

Definition scalars : list Z := map Z.of_nat (seq 0 (Z.to_nat n)).
Lemma scalars_in i : In i scalars <-> 0 <= i < n.
Proof.
  unfold scalars. rewrite in_map_iff. split.
  - intros (k & <- & Hk). apply in_seq in Hk. lia.
  - intros H. exists (Z.to_nat i). split; [lia|]. apply in_seq. lia.
Qed.
Lemma scalars_nodup : NoDup scalars.
Proof. apply FinFun.Injective_map_NoDup; [|apply seq_NoDup]. intros x y. lia. Qed.

Definition coset (P : A) : list A := map (fun i => add P (zmul i g)) scalars.

Lemma coset_nodup P : NoDup (coset P).
Proof.
  unfold coset. assert (H : forall l, NoDup l -> (forall i, In i l -> 0 <= i < n) ->
    NoDup (map (fun i => add P (zmul i g)) l)).
  { induction l as [|i l IH]; intros Hn Hr; cbn; [constructor|]. inversion Hn; subst. constructor.
    - intros Hin. apply in_map_iff in Hin as (j & E & Hj). apply cancel_l in E.
      apply zmul_g_inj in E; [subst; contradiction| |]; apply Hr; [now right|now left].
    - apply IH; auto. intros k Hk. apply Hr. now right. }
  apply H; [apply scalars_nodup|]. intros i. apply scalars_in.
Qed.

Lemma bounded_length (l : list A) : NoDup l -> Z.of_nat (length l) <= N.
Proof.
  intros Hl.
  assert (Hc : NoDup (map code l)).
  { induction Hl as [|x l Hx Hl IH]; cbn; constructor; auto. intros Hin.
    apply in_map_iff in Hin as (y & E & Hy). apply code_inj in E. now subst. }
  assert (Hi : incl (map code l) (map Z.of_nat (seq 0 (Z.to_nat N)))).
  { intros z Hz. apply in_map_iff in Hz as (P & <- & _). pose proof (code_range P).
    apply in_map_iff. exists (Z.to_nat (code P)). split; [lia|]. apply in_seq. lia. }
  pose proof (NoDup_incl_length Hc Hi) as H. rewrite !map_length, seq_length in H.
  pose proof (code_range zero). lia.
Qed.

Lemma app_nodup {B} (l l' : list B) : NoDup l -> NoDup l' -> (forall x, In x l -> ~ In x l') -> NoDup (l ++ l').
Proof.
  induction l as [|x l IH]; intros Ha Hb Hd; [exact Hb|]. inversion Ha; subst. cbn. constructor.
  - rewrite in_app_iff. intros [H|H]; [contradiction|]. apply (Hd x); [now left|exact H].
  - apply IH; auto. intros y Hy. apply Hd. now right.
Qed.

Lemma neg_zmul i : 0 <= i < n -> neg (zmul i g) = zmul (n - i) g.
Proof.
  intros Hi. apply (cancel_l (zmul i g)). rewrite add_neg, <- zmul_add by lia.
  replace (i + (n - i)) with n by lia. now symmetry.
Qed.

Lemma neg_unique P Q : add P Q = zero -> Q = neg P.
Proof. intros E. apply (cancel_l P). now rewrite E, add_neg. Qed.

Lemma sub_zmul P i j : 0 <= i < n -> 0 <= j < n -> add P (zmul i g) = zmul j g -> P = zmul (j + (n - i)) g.
Proof.
  intros Hi Hj E. rewrite zmul_add by lia. rewrite <- (neg_zmul i) by lia. rewrite <- E, add_assoc, add_neg.
  now rewrite add_zero_r.
Qed.

Lemma neg_neg_ P : neg (neg P) = P.
Proof. symmetry. apply neg_unique. rewrite add_comm. apply add_neg. Qed.

Lemma neg_add_ P Q : neg (add P Q) = add (neg P) (neg Q).
Proof.
  symmetry. apply neg_unique. rewrite add_swap, !add_neg. apply add_zero.
Qed.

Theorem generated P : exists k, 0 <= k < n /\ P = zmul k g.
Proof.
  assert (Hred : (exists k, 0 <= k /\ P = zmul k g) -> exists k, 0 <= k < n /\ P = zmul k g).
  { intros (k & Hk & ->). exists (k mod n). split; [apply Z.mod_pos_bound; lia|].
    now rewrite zmul_mod by (auto; lia). }
  apply Hred. clear Hred.
  destruct (in_dec dec P (coset zero)) as [Hin|Hout].
  { apply in_map_iff in Hin as (k & <- & Hk). apply scalars_in in Hk. exists k. rewrite add_zero. split; [lia|reflexivity]. }
  exfalso.
  assert (Hno : forall k, 0 <= k -> P <> zmul k g).
  { intros k Hk E. apply Hout. unfold coset. apply in_map_iff. exists (k mod n). rewrite add_zero.
    split; [rewrite zmul_mod by (auto; lia); now symmetry|]. apply scalars_in. apply Z.mod_pos_bound. lia. }
  pose proof (bounded_length (coset zero ++ (coset P ++ coset (neg P)))) as H.
  assert (Hnd : NoDup (coset zero ++ (coset P ++ coset (neg P)))).
  { apply app_nodup; [apply coset_nodup| |].
    - apply app_nodup; try apply coset_nodup. intros x Hx Hy.
      apply in_map_iff in Hx as (i & <- & Hi). apply in_map_iff in Hy as (j & E & Hj).
      apply scalars_in in Hi, Hj.
      (* P + P = k g *)
      assert (E2 : add (add P P) (zmul i g) = zmul j g).
      { rewrite add_assoc, <- E, <- add_assoc, add_neg. apply add_zero. }
      apply sub_zmul in E2; auto. set (k := j + (n - i)) in *. assert (0 <= k) by lia.
      pose (h := (n + 1) / 2).
      assert (Hh : 2 * h = n + 1).
      { assert (n mod 2 = 1).
        { pose proof (Z.mod_pos_bound n 2 ltac:(lia)).
          assert (n mod 2 <> 0); [|lia]. intros E0.
          apply Z.mod_divide in E0; [|lia]. apply (prime_div_prime 2 n prime_2 n_prime) in E0. lia. }
        unfold h. rewrite Z.add_comm. pose proof (Z.div_mod n 2 ltac:(lia)).
        replace (1 + n) with ((n / 2 + 1) * 2) by lia. rewrite Z.div_mul by lia. lia. }
      assert (Hh0 : 0 <= h) by lia.
      assert (E3 : add (zmul (h * k) g) (zmul (h * k) g) = zmul k g).
      { rewrite <- zmul_add by nia. replace (h * k + h * k) with (k + k * n) by nia.
        rewrite zmul_add, <- zmul_mul, n_g, zmul_zero by nia. apply add_zero_r. }
      apply (Hno (h * k)); [nia|].
      assert (E4 : add P (neg (zmul (h * k) g)) = zero).
      { apply no_two. rewrite add_swap, E2, <- E3, <- neg_add_. apply add_neg. }
      rewrite <- (neg_neg_ (zmul (h * k) g)). rewrite add_comm in E4. now apply neg_unique in E4.
    - intros x Hx Hy. apply in_map_iff in Hx as (i & <- & Hi). apply scalars_in in Hi. rewrite add_zero in Hy.
      apply in_app_iff in Hy as [Hy|Hy]; apply in_map_iff in Hy as (j & E & Hj); apply scalars_in in Hj.
      + apply sub_zmul in E; auto. apply (Hno (i + (n - j))); auto. lia.
      + apply (f_equal neg) in E. rewrite neg_add_, neg_neg_, !neg_zmul in E by auto.
        assert (E' : P = zmul (n - i + j) g).
        { rewrite zmul_add, <- E by lia. rewrite add_assoc, <- zmul_add by lia.
          replace (n - j + j) with n by lia. now rewrite n_g, add_zero_r. }
        apply (Hno (n - i + j)); auto. lia. }
  specialize (H Hnd). unfold coset, scalars in H. rewrite !app_length, !map_length, seq_length in H. lia.
Qed.

Theorem order_all P : zmul n P = zero.
Proof.
  destruct (generated P) as (k & Hk & ->). rewrite zmul_mul, Z.mul_comm, <- zmul_mul, n_g by lia.
  apply zmul_zero.
Qed.

(** Two classes of multiples are already too many: fewer than [2 n] elements
    suffice, whatever their orders. *)
Theorem generated_small : (forall l : list A, NoDup l -> Z.of_nat (length l) < 2 * n) ->
  forall P, exists k, 0 <= k < n /\ P = zmul k g.
Proof.
  intros Hsmall P.
  destruct (in_dec dec P (coset zero)) as [Hin|Hout].
  { apply in_map_iff in Hin as (k & <- & Hk). apply scalars_in in Hk. exists k. rewrite add_zero. split; [lia|reflexivity]. }
  exfalso.
  assert (Hno : forall k, 0 <= k -> P <> zmul k g).
  { intros k Hk E. apply Hout. unfold coset. apply in_map_iff. exists (k mod n). rewrite add_zero.
    split; [rewrite zmul_mod by (auto; lia); now symmetry|]. apply scalars_in. apply Z.mod_pos_bound. lia. }
  assert (Hnd : NoDup (coset zero ++ coset P)).
  { apply app_nodup; [apply coset_nodup|apply coset_nodup|].
    intros x Hx Hy. apply in_map_iff in Hx as (i & <- & Hi). apply scalars_in in Hi. rewrite add_zero in Hy.
    apply in_map_iff in Hy as (j & E & Hj); apply scalars_in in Hj.
    apply sub_zmul in E; auto. apply (Hno (i + (n - j))); auto. lia. }
  specialize (Hsmall _ Hnd). unfold coset, scalars in Hsmall. rewrite !app_length, !map_length, seq_length in Hsmall. lia.
Qed.
End Mult.
