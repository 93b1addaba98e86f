(** * Pocklington: checkable primality certificates.

    Library mathematics; models no code.  [Primes] uses it to prove that the
    group orders of the built-in ciphersuites are prime. *)
From Coq Require Import ZArith Znumtheory Zpow_facts Lia List.
From Verif Require Import Fermat.
Import ListNotations.
Open Scope bool_scope.
Open Scope Z_scope.

(** Reduction modulo [n] by Barrett's method, with [k] the number of bits of
    [n] and [mu = 4 ^ k / n]; the answer is checked, so that nothing needs to
    be proved about the method. *)
Definition fast_mod (n k mu x : Z) : Z :=
  let r := x - Z.shiftr (Z.shiftr x (k - 1) * mu) (k + 1) * n in
  let r := if n <=? r then r - n else r in
  let r := if n <=? r then r - n else r in
  if (0 <=? r) && (r <? n) then r else x mod n.

Lemma fast_mod_spec n k mu x : fast_mod n k mu x = x mod n.
Proof.
  unfold fast_mod. set (q := Z.shiftr _ _). cbv zeta.
  set (r0 := x - q * n).
  assert (H : forall r, (exists j, r = x - j * n) ->
    (exists j, (if n <=? r then r - n else r) = x - j * n)).
  { intros r [j ->]. destruct (n <=? x - j * n); [exists (j + 1); lia|exists j; lia]. }
  assert (H0 : exists j, r0 = x - j * n) by (exists q; reflexivity).
  apply H in H0. set (r1 := if n <=? r0 then r0 - n else r0) in *.
  apply H in H0. set (r2 := if n <=? r1 then r1 - n else r1) in *.
  destruct H0 as [j Hj].
  destruct (Z.leb_spec 0 r2) as [Ha|Ha]; [|reflexivity].
  destruct (Z.ltb_spec r2 n) as [Hb|Hb]; [|reflexivity]. cbn [andb].
  apply (Z.mod_unique_pos x n j); lia.
Qed.

(** Powers modulo [n] by repeated squaring. *)
Fixpoint powmod_pos (a : Z) (e : positive) (n k mu : Z) : Z :=
  match e with
  | xH => a mod n
  | xO e => let x := powmod_pos a e n k mu in fast_mod n k mu (x * x)
  | xI e => let x := powmod_pos a e n k mu in fast_mod n k mu (x * x * a)
  end.
Definition powmod (a e n : Z) : Z :=
  let k := Z.log2 n + 1 in
  match e with Zpos e => powmod_pos a e n k (4 ^ k / n) | _ => 1 mod n end.

Lemma powmod_pos_spec a e n k mu : powmod_pos a e n k mu = a ^ Zpos e mod n.
Proof.
  induction e as [e IH|e IH|]; cbn [powmod_pos]; rewrite ?fast_mod_spec.
  - rewrite IH. rewrite <- Zmult_mod_idemp_l, <- Zmult_mod, Zmult_mod_idemp_l.
    f_equal. rewrite Pos2Z.inj_xI, Z.pow_add_r, Z.pow_1_r by lia.
    replace (2 * Z.pos e) with (Z.pos e + Z.pos e) by lia. now rewrite Z.pow_add_r by lia.
  - rewrite IH. rewrite <- Zmult_mod. f_equal. rewrite Pos2Z.inj_xO.
    replace (2 * Z.pos e) with (Z.pos e + Z.pos e) by lia. now rewrite Z.pow_add_r by lia.
  - now rewrite Z.pow_1_r.
Qed.

Lemma powmod_spec a e n : 0 <= e -> powmod a e n = a ^ e mod n.
Proof. destruct e; intros H; [reflexivity|apply powmod_pos_spec|lia]. Qed.

(** Prime divisors. *)
Lemma prime_divisor n : 1 < n -> exists p, prime p /\ (p | n).
Proof.
  intros Hn. assert (H0 : 0 <= n) by lia. revert Hn. pattern n. apply Zlt_0_ind; [|exact H0].
  clear n H0. intros n IH _ Hn.
  destruct (prime_dec n) as [Hp|Hp]; [exists n; split; [auto|apply Z.divide_refl]|].
  destruct (not_prime_divide n Hn Hp) as (d & Hd & Hdn).
  destruct (IH d) as (p & Hp' & Hpd); [lia|lia|].
  exists p. split; auto. eapply Z.divide_trans; eauto.
Qed.

Lemma prime_of_divisors n : 1 < n -> (forall p, prime p -> (p | n) -> n < p * p) -> prime n.
Proof.
  intros Hn H. destruct (prime_dec n) as [Hp|Hp]; auto. exfalso.
  destruct (not_prime_divide n Hn Hp) as (d & Hd & [k Hk]).
  assert (1 < k) by nia.
  destruct (prime_divisor d) as (p & Hp1 & Hpd); [lia|].
  destruct (prime_divisor k) as (r & Hr1 & Hrk); [lia|].
  assert (n < p * p) by (apply H; auto; eapply Z.divide_trans; [exact Hpd|exists k; lia]).
  assert (n < r * r) by (apply H; auto; eapply Z.divide_trans; [exact Hrk|exists d; rewrite Hk; ring]).
  apply Z.divide_pos_le in Hpd; [|lia]. apply Z.divide_pos_le in Hrk; [|lia].
  destruct Hp1 as [Hp1 _], Hr1 as [Hr1 _]. 
  assert (p * p <= d * d) by (apply Z.mul_le_mono_nonneg; lia).
  assert (r * r <= k * k) by (apply Z.mul_le_mono_nonneg; lia).
  assert (k < d) by nia. assert (d < k) by nia. lia.
Qed.

Definition prod (l : list Z) : Z := fold_right Z.mul 1 l.

Lemma prime_in_prod p l : prime p -> Forall prime l -> (p | prod l) -> In p l.
Proof.
  intros Hp Hl. induction Hl as [|x l Hx Hl IH]; cbn; intros Hd.
  - apply Z.divide_1_r_nonneg in Hd; destruct Hp; lia.
  - apply prime_mult in Hd; auto. destruct Hd as [Hd|Hd]; auto.
    left. symmetry. now apply prime_div_prime.
Qed.

(** Powers that are 1 modulo [p]. *)
Lemma pow_one_mul b p x k : 1 < p -> 0 <= x -> 0 <= k -> b ^ x mod p = 1 -> b ^ (x * k) mod p = 1.
Proof.
  intros Hp Hx Hk H. rewrite Z.pow_mul_r by lia. rewrite Zpower_mod by lia. rewrite H.
  rewrite Z.pow_1_l by lia. apply Z.mod_1_l. lia.
Qed.

Lemma pow_one_gcd b p x y : 1 < p -> 0 < x -> 0 < y ->
  b ^ x mod p = 1 -> b ^ y mod p = 1 -> b ^ Z.gcd x y mod p = 1.
Proof.
  intros Hp Hx Hy H1 H2.
  destruct (Z.gcd_bezout x y _ eq_refl) as (u & v & Huv).
  (* make the coefficients non-negative: (u + k y) x = g + (k x - v) y *)
  set (k := Z.abs u + Z.abs v + 1).
  assert (HE : (u + k * y) * x = Z.gcd x y + (k * x - v) * y) by lia.
  assert (Hu : 0 <= u + k * y) by (unfold k; nia).
  assert (Hv : 0 <= k * x - v) by (unfold k; nia).
  pose proof (Z.gcd_nonneg x y) as Hg.
  assert (Ha : b ^ ((u + k * y) * x) mod p = 1)
    by (rewrite Z.mul_comm; apply pow_one_mul; lia).
  rewrite HE, Z.pow_add_r in Ha by nia. rewrite Zmult_mod in Ha.
  assert (Hb : b ^ ((k * x - v) * y) mod p = 1)
    by (rewrite Z.mul_comm; apply pow_one_mul; lia).
  rewrite Hb, Z.mul_1_r, Zmod_mod in Ha. exact Ha.
Qed.

Theorem pocklington N a fs :
  1 < N -> 0 <= a -> Forall prime fs ->
  (prod fs | N - 1) -> N < prod fs * prod fs ->
  a ^ (N - 1) mod N = 1 ->
  (forall q, In q fs -> Z.gcd (a ^ ((N - 1) / q) mod N - 1) N = 1) ->
  prime N.
Proof.
  intros HN Ha Hfs [m Hm] HF H1 Hq. set (F := prod fs) in *.
  assert (HFpos : 0 < F).
  { unfold F. clear -Hfs. induction Hfs as [|x l Hx Hl IH]; cbn [prod fold_right]; [lia|]. fold (prod l). destruct Hx. nia. }
  assert (Hmpos : 0 < m) by nia.
  apply prime_of_divisors; auto. intros p Hp [c Hc].
  assert (Hp1 : 1 < p) by (destruct Hp; auto).
  assert (Hred : forall x y, 0 <= y -> x mod N = y mod N -> x mod p = y mod p).
  { intros x y Hy E. rewrite (Z.div_mod x N), (Z.div_mod y N), E by lia. rewrite Hc.
    replace (c * p * (x / (c * p)) + y mod (c * p)) with (y mod (c * p) + (c * (x / (c * p))) * p) by lia.
    replace (c * p * (y / (c * p)) + y mod (c * p)) with (y mod (c * p) + (c * (y / (c * p))) * p) by lia.
    now rewrite !Z_mod_plus_full. }
  assert (H1p : a ^ (N - 1) mod p = 1).
  { rewrite (Hred _ 1); [apply Z.mod_1_l; lia|lia|]. rewrite H1. symmetry. apply Z.mod_1_l. lia. }
  assert (Hnd : ~ (p | a)).
  { intros [k Hk]. rewrite Hk in H1p. replace (N - 1) with (Z.succ (N - 2)) in H1p by lia.
    rewrite Z.pow_succ_r in H1p by lia.
    replace (k * p * (k * p) ^ (N - 2)) with (k * (k * p) ^ (N - 2) * p) in H1p by lia.
    rewrite Z_mod_mult in H1p. lia. }
  pose proof (fermat_one p Hp a Hnd) as Hfp.
  set (b := a ^ m).
  assert (HbF : b ^ F mod p = 1).
  { unfold b. rewrite <- Z.pow_mul_r by lia. now rewrite <- Hm. }
  assert (Hbp : b ^ (p - 1) mod p = 1).
  { unfold b. rewrite <- Z.pow_mul_r by lia. rewrite Z.mul_comm. apply pow_one_mul; lia. }
  pose proof (pow_one_gcd b p F (p - 1) Hp1 HFpos ltac:(lia) HbF Hbp) as Hd.
  set (d := Z.gcd F (p - 1)) in *.
  assert (Hdpos : 0 < d).
  { unfold d. pose proof (Z.gcd_nonneg F (p - 1)). assert (Z.gcd F (p - 1) <> 0); [|lia].
    intros E. apply Z.gcd_eq_0_l in E. lia. }
  assert (HdF : (d | F)) by apply Z.gcd_divide_l.
  assert (Hdp : (d | p - 1)) by apply Z.gcd_divide_r.
  destruct (Z.eq_dec d F) as [E|E].
  - rewrite E in Hdp. apply Z.divide_pos_le in Hdp; [|lia]. nia.
  - exfalso. destruct HdF as [k Hk].
    assert (Hk1 : 1 < k) by (assert (k <> 1) by nia; nia).
    destruct (prime_divisor k Hk1) as (q & Hqp & Hqk).
    assert (HqF : (q | F)).
    { destruct Hqk as [j Hj]. exists (j * d). rewrite Hk, Hj. lia. }
    assert (Hin : In q fs) by (apply prime_in_prod; auto).
    destruct Hqk as [j Hj]. assert (Hq1 : 1 < q) by (destruct Hqp; auto).
    assert (Hjpos : 0 < j) by nia.
    assert (He : (N - 1) / q = m * (d * j)).
    { rewrite Hm, Hk, Hj. replace (m * (j * q * d)) with (m * (d * j) * q) by lia.
      now rewrite Z.div_mul by lia. }
    assert (Hone : a ^ ((N - 1) / q) mod p = 1).
    { rewrite He, Z.pow_mul_r by nia. fold b. apply pow_one_mul; lia. }
    specialize (Hq q Hin).
    assert (Hpd : (p | Z.gcd (a ^ ((N - 1) / q) mod N - 1) N)).
    { apply Z.gcd_greatest; [|exists c; auto].
      apply Z.mod_divide; [lia|]. rewrite Zminus_mod.
      rewrite (Hred (a ^ ((N - 1) / q) mod N) (a ^ ((N - 1) / q)));
        [|apply Z.pow_nonneg; lia|apply Zmod_mod].
      rewrite Hone, (Z.mod_1_l p), Z.sub_diag by lia. apply Z.mod_0_l. lia. }
    rewrite Hq in Hpd. apply Z.divide_1_r_nonneg in Hpd; lia.
Qed.

(** Trial division for the small primes at the leaves. *)
Fixpoint no_divisor (n : Z) (d : Z) (fuel : nat) : bool :=
  match fuel with
  | O => false
  | S fuel => if n <? d * d then true else if n mod d =? 0 then false else no_divisor n (d + 1) fuel
  end.

Lemma no_divisor_spec n fuel : forall d, 1 < d -> no_divisor n d fuel = true ->
  forall x, d <= x -> x * x <= n -> ~ (x | n).
Proof.
  induction fuel as [|fuel IH]; intros d Hd H x Hx Hxn Hdiv; [discriminate|]. cbn in H.
  destruct (Z.ltb_spec n (d * d)); [nia|].
  destruct (Z.eqb_spec (n mod d) 0) as [E|E]; [discriminate|].
  destruct (Z.eq_dec x d) as [->|Hne].
  - apply E. apply Z.mod_divide; [lia|auto].
  - apply (IH (d + 1) ltac:(lia) H x); auto. lia.
Qed.

Definition small_prime (n : Z) : bool := (1 <? n) && no_divisor n 2 101.

Lemma small_prime_spec n : small_prime n = true -> prime n.
Proof.
  intros H. apply andb_prop in H as [H1 H2]. apply Z.ltb_lt in H1.
  apply prime_of_divisors; auto. intros p Hp Hd.
  destruct (Z_lt_le_dec n (p * p)); auto. exfalso.
  destruct Hp as [Hp _]. exact (no_divisor_spec n 101 2 ltac:(lia) H2 p ltac:(lia) ltac:(lia) Hd).
Qed.

(** A certificate: a list of (number, witness, some prime factors of the
    number minus one), each using only numbers proved before. *)
Definition check1 (known : list Z) (N a : Z) (fs : list Z) : bool :=
  small_prime N ||
  match fs with
  | [] => false
  | q0 :: fs' =>
      (1 <? N) && (0 <=? a) && forallb (fun q => existsb (Z.eqb q) known) fs &&
      ((N - 1) mod prod fs =? 0) && (N <? prod fs * prod fs) &&
      (let x := powmod a ((N - 1) / q0) N in
       (powmod x q0 N =? 1) && (Z.gcd (x - 1) N =? 1)) &&
      forallb (fun q => Z.gcd (powmod a ((N - 1) / q) N - 1) N =? 1) fs'
  end.

Fixpoint check (known : list Z) (cert : list (Z * Z * list Z)) : bool :=
  match cert with
  | [] => true
  | (N, a, fs) :: cert => check1 known N a fs && check (N :: known) cert
  end.

Lemma check1_spec known N a fs : Forall prime known -> check1 known N a fs = true -> prime N.
Proof.
  intros Hk H. unfold check1 in H. apply Bool.orb_prop in H as [H|H]; [now apply small_prime_spec|].
  destruct fs as [|q0 fs']; [discriminate|]. set (fs := q0 :: fs') in *. cbv zeta in H.
  apply andb_prop in H as [H H7]. apply andb_prop in H as [H H6]. apply andb_prop in H as [H H5].
  apply andb_prop in H as [H H4]. apply andb_prop in H as [H H3]. apply andb_prop in H as [H1 H2].
  apply andb_prop in H6 as [H6 H6'].
  apply Z.ltb_lt in H1, H5. apply Z.leb_le in H2. apply Z.eqb_eq in H4, H6, H6'.
  rewrite forallb_forall in H3, H7.
  assert (Hfs : Forall prime fs).
  { apply Forall_forall. intros q Hq. rewrite Forall_forall in Hk. apply Hk.
    apply H3, existsb_exists in Hq.
    destruct Hq as (y & Hy & E). apply Z.eqb_eq in E. now subst. }
  assert (HF : 0 < prod fs).
  { clear -Hfs. induction Hfs as [|x l Hx Hl IH]; cbn [prod fold_right]; [lia|]. fold (prod l). destruct Hx. nia. }
  apply Z.mod_divide in H4; [|lia].
  assert (Hpos : forall q, In q fs -> 1 < q) by (intros q Hq; rewrite Forall_forall in Hfs; now destruct (Hfs q Hq)).
  assert (Hq0 : 1 < q0) by (apply Hpos; now left).
  assert (He : forall q, In q fs -> 0 <= (N - 1) / q)
    by (intros q Hq; specialize (Hpos q Hq); apply Z.div_pos; lia).
  assert (Hpow : forall q, In q fs -> powmod a ((N - 1) / q) N = a ^ ((N - 1) / q) mod N)
    by (intros q Hq; apply powmod_spec; auto).
  apply (pocklington N a fs); auto.
  - rewrite powmod_spec, Hpow, <- Zpower_mod, <- Z.pow_mul_r in H6; try lia; try (now left); [|apply He; now left].
    replace ((N - 1) / q0 * q0) with (N - 1) in H6; auto.
    destruct H4 as [m Hm]. change (prod fs) with (q0 * prod fs') in Hm.
    rewrite Hm. replace (m * (q0 * prod fs')) with (m * prod fs' * q0) by ring. now rewrite Z.div_mul by lia.
  - intros q [<-|Hq].
    + rewrite <- Hpow; auto. now left.
    + rewrite <- Hpow by now right. now apply Z.eqb_eq, H7.
Qed.

Theorem check_spec cert : forall known, Forall prime known -> check known cert = true ->
  forall N a fs, In (N, a, fs) cert -> prime N.
Proof.
  induction cert as [|[[N a] fs] cert IH]; intros known Hk H; cbn in *; [easy|].
  apply andb_prop in H as [H1 H2]. apply check1_spec in H1; auto.
  intros N' a' fs' [E|Hin]; [now injection E as <- _ _|].
  eapply (IH (N :: known)); eauto.
Qed.
