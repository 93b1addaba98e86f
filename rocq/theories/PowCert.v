(** * PowCert: powers modulo a number, and primality, with the quotients and
    remainders of all reductions supplied.

    Library mathematics; models no code.  Division is the slow part of modular
    exponentiation; with the quotient and the remainder supplied it costs one
    multiplication by the modulus, which is cheap when the modulus is a short
    sum of powers of sixteen ([modul]). *)
From Verif Require Import Pocklington HexNum.
From Coq Require Import ZArith Znumtheory Zpow_facts List Lia.
Import ListNotations.
Open Scope bool_scope.
Open Scope Z_scope.

(** Square, multiply by the base if the exponent bit is set, reduce: quotient
    and remainder. *)
Inductive pstep : Set :=
| P0 (q r : Z)
| P1 (q r : Z).

Section Pow.
Context (m : modul) (a : num).
Fixpoint powq (x : num) (k : Z) (l : list pstep) : option (num * Z) :=
  match l with
  | [] => Some (x, k)
  | P0 q r :: l => let r := ofZ r in if congr m (mul x x) r q then powq r (2 * k) l else None
  | P1 q r :: l => let r := ofZ r in if congr m (mul a (mul x x)) r q then powq r (2 * k + 1) l else None
  end.
End Pow.

Lemma powq_spec m n a : 0 < n -> modulus_is m n = true -> 0 <= a -> forall l x k, 0 <= k -> val x mod n = a ^ k mod n ->
  forall x' k', powq m (ofZ a) x k l = Some (x', k') -> 0 <= k' /\ val x' mod n = a ^ k' mod n.
Proof.
  intros Hn Hm Ha. induction l as [|[q r|q r] l IH]; intros x k Hk Hx x' k' H; cbn [powq] in H; cbv zeta in H.
  - injection H as <- <-. split; auto.
  - destruct (congr _ _ _ _) eqn:E; [|discriminate H]. apply (congr_spec m n _ _ _ Hm) in E. rewrite mul_val in E.
    refine (IH _ _ _ _ _ _ H); [lia|]. replace (val (ofZ r)) with (val x * val x + - q * n) by lia.
    rewrite Z_mod_plus_full, Zmult_mod, Hx, <- Zmult_mod, <- Z.pow_add_r by lia. f_equal. f_equal. lia.
  - destruct (congr _ _ _ _) eqn:E; [|discriminate H]. apply (congr_spec m n _ _ _ Hm) in E. rewrite !mul_val, (ofZ_val a Ha) in E.
    refine (IH _ _ _ _ _ _ H); [lia|]. replace (val (ofZ r)) with (a * (val x * val x) + - q * n) by lia.
    rewrite Z_mod_plus_full, Zmult_mod, (Zmult_mod (val x)), Hx, <- (Zmult_mod (a ^ k)), <- Zmult_mod, <- Z.pow_add_r by lia.
    rewrite <- (Z.pow_succ_r a) by lia. f_equal. f_equal. lia.
Qed.

(** [l] computes [a ^ e mod n = r]. *)
Definition check_pow (m : modul) (n a e r : Z) (l : list pstep) : bool :=
  match powq m (ofZ a) (X1 E) 0 l with
  | Some (x, k) => (k =? e) && eqb x (ofZ r) && (0 <=? a) && (0 <=? r) && (r <? n)
  | None => false
  end.

Theorem check_pow_spec m n a e r l : 0 < n -> modulus_is m n = true ->
  check_pow m n a e r l = true -> 0 <= e /\ a ^ e mod n = r.
Proof.
  intros Hn Hm H. unfold check_pow in H.
  destruct (powq m (ofZ a) (X1 E) 0 l) as [[x k]|] eqn:Hs; [|discriminate].
  apply andb_prop in H as [H H4]. apply andb_prop in H as [H H3]. apply andb_prop in H as [H H5]. apply andb_prop in H as [H1 H2].
  apply Z.eqb_eq in H1. apply eqb_val in H2. subst k. apply Z.leb_le in H3, H5. apply Z.ltb_lt in H4.
  apply (powq_spec m n a Hn Hm H5 l (X1 E) 0 (Z.le_refl 0) eq_refl) in Hs as [Hk Hs].
  rewrite ofZ_val in H2 by assumption. subst r.
  split; [exact Hk|]. rewrite <- Hs. apply Z.mod_small. lia.
Qed.

(** Pocklington certificates with quotients. *)
Record pcert : Set := mkcert {
  c_n : Z;                                    (* the prime *)
  c_m : modul;
  c_a : Z;                                    (* the witness *)
  c_main : list pstep;                        (* a ^ (n - 1) = 1 *)
  c_fs : list (Z * Z * list pstep)            (* prime q | n - 1, a ^ ((n - 1) / q) = r *)
}.

Definition check_cert (known : list Z) (c : pcert) : bool :=
  let n := c_n c in
  small_prime n ||
  (1 <? n) && (0 <=? c_a c) && modulus_is (c_m c) n &&
  (let fs := map (fun '(q, _, _) => q) (c_fs c) in
   forallb (fun q => existsb (Z.eqb q) known) fs &&
   ((n - 1) mod prod fs =? 0) && (n <? prod fs * prod fs)) &&
  check_pow (c_m c) n (c_a c) (n - 1) 1 (c_main c) &&
  forallb (fun '(q, r, l) => check_pow (c_m c) n (c_a c) ((n - 1) / q) r l && (Z.gcd (r - 1) n =? 1)) (c_fs c).

Fixpoint check_certs (known : list Z) (cs : list pcert) : bool :=
  match cs with
  | [] => true
  | c :: cs => check_cert known c && check_certs (c_n c :: known) cs
  end.

Lemma check_cert_spec known c : Forall prime known -> check_cert known c = true -> prime (c_n c).
Proof.
  intros Hk H. unfold check_cert in H. set (n := c_n c) in *.
  apply Bool.orb_prop in H as [H|H]; [now apply small_prime_spec|]. cbv zeta in H.
  set (fs := map (fun '(q, _, _) => q) (c_fs c)) in *.
  apply andb_prop in H as [H H6]. apply andb_prop in H as [H H5]. apply andb_prop in H as [H H4].
  apply andb_prop in H as [H H3]. apply andb_prop in H as [H1 H2].
  apply andb_prop in H4 as [H4 H43]. apply andb_prop in H4 as [H41 H42].
  apply Z.ltb_lt in H1, H43. apply Z.leb_le in H2. apply Z.eqb_eq in H42.
  rewrite forallb_forall in H41, H6.
  assert (Hfs : Forall prime fs).
  { apply Forall_forall. intros q Hq. rewrite Forall_forall in Hk. apply Hk.
    apply H41, existsb_exists in Hq. destruct Hq as (y & Hy & E). apply Z.eqb_eq in E. now subst. }
  assert (HF : 0 < prod fs).
  { clear -Hfs. induction Hfs as [|x l Hx Hl IH]; cbn [prod fold_right]; [lia|]. fold (prod l). destruct Hx. nia. }
  apply Z.mod_divide in H42; [|lia].
  apply (pocklington n (c_a c) fs); auto.
  - apply (check_pow_spec (c_m c) n (c_a c) (n - 1) 1 (c_main c)); auto. lia.
  - intros q Hq. unfold fs in Hq. apply in_map_iff in Hq as ([[q' r] l] & E & Hin). subst q'.
    apply H6 in Hin. apply andb_prop in Hin as [Ha Hb]. apply Z.eqb_eq in Hb.
    apply check_pow_spec in Ha as [_ Ha]; auto; [|lia]. now rewrite Ha.
Qed.

Theorem check_certs_spec cs : forall known, Forall prime known -> check_certs known cs = true ->
  Forall (fun c => prime (c_n c)) cs.
Proof.
  induction cs as [|c cs IH]; intros known Hk H; cbn [check_certs] in H; constructor;
    apply andb_prop in H as [H1 H2]; apply check_cert_spec in H1; auto.
  apply (IH (c_n c :: known)); auto.
Qed.

Corollary certified_prime cs n :
  check_certs [] cs = true -> existsb (fun c => c_n c =? n) cs = true -> prime n.
Proof.
  intros Hc H. apply existsb_exists in H as (c & Hin & E). apply Z.eqb_eq in E. subst.
  pose proof (check_certs_spec cs [] (Forall_nil _) Hc) as Ha. rewrite Forall_forall in Ha. exact (Ha c Hin).
Qed.

(** Minus a base whose odd power is 1. *)
Lemma pow_neg_odd n a e : 2 < n -> Z.odd e = true -> a ^ e mod n = 1 -> (- a) ^ e mod n = n - 1.
Proof.
  intros Hn Ho H. rewrite Z.pow_opp_odd by (now apply Z.odd_spec).
  rewrite Z_mod_nz_opp_full; [|rewrite H; discriminate]. now rewrite H.
Qed.
