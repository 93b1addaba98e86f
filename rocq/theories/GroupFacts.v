(** * GroupFacts: algebra derived from [GroupLaws]. *)
From Verif Require Export Laws.
From Coq Require Export Ring Field.

Section GroupFacts.
Context {G : Group} (L : GroupLaws G).
Add Field scalar_field_inst : (scalar_field G L).
Local Notation "0s" := (zero_scalar G).
Local Notation "P [+] Q" := (elem_add G P Q) (at level 50, left associativity).
Local Notation "k [*] P" := (elem_mul G P k) (at level 40).
Local Notation B := (base_elem G).
Local Notation idn := (identity_elem G).

Lemma scalar_eq_dec (a b : Scalar G) : {a = b} + {a <> b}.
Proof.
  destruct (scalar_ct_eq G a b) eqn:E.
  - left. now apply (scalar_ct_eq_spec G L).
  - right. intros H. apply (scalar_ct_eq_spec G L) in H. congruence.
Qed.

Lemma elem_eq_dec (a b : Elem G) : {a = b} + {a <> b}.
Proof.
  destruct (elem_ct_eq G a b) eqn:E.
  - left. now apply (elem_ct_eq_spec G L).
  - right. intros H. apply (elem_ct_eq_spec G L) in H. congruence.
Qed.

Lemma is_identity_spec (e : Elem G) : is_identity_elem G e = true <-> e = idn.
Proof.
  unfold is_identity_elem. rewrite (elem_ct_eq_spec G L). split; congruence.
Qed.

Lemma is_identity_false (e : Elem G) : is_identity_elem G e = false <-> e <> idn.
Proof.
  rewrite <- is_identity_spec. destruct (is_identity_elem G e); split; congruence.
Qed.

Lemma is_zero_false (s : Scalar G) : is_zero_scalar G s = false <-> s <> 0s.
Proof.
  rewrite <- (is_zero_spec G L). destruct (is_zero_scalar G s); split; congruence.
Qed.

Lemma one_neq_zero : s_one L <> 0s.
Proof. apply (F_1_neq_0 (scalar_field G L)). Qed.

Lemma inv_l (a : Scalar G) : a <> 0s -> scalar_mul G (s_inv L a) a = s_one L.
Proof. apply (Finv_l (scalar_field G L)). Qed.

Lemma inv_r (a : Scalar G) : a <> 0s -> scalar_mul G a (s_inv L a) = s_one L.
Proof. intros; field; auto. Qed.

Lemma inv_neq_zero (a : Scalar G) : a <> 0s -> s_inv L a <> 0s.
Proof.
  intros Ha H. apply one_neq_zero. rewrite <- (inv_l a Ha), H. ring.
Qed.

Lemma mul_neq_zero (a b : Scalar G) : a <> 0s -> b <> 0s -> scalar_mul G a b <> 0s.
Proof.
  intros Ha Hb H.
  apply Hb. replace b with (scalar_mul G (s_inv L a) (scalar_mul G a b)) by (field; auto).
  rewrite H. ring.
Qed.

Lemma sub_zero_eq (a b : Scalar G) : scalar_sub G a b = 0s -> a = b.
Proof. intros H. replace a with (scalar_add G (scalar_sub G a b) b) by ring. rewrite H. ring. Qed.

Lemma sadd_cancel_r (a b c : Scalar G) : scalar_add G a c = scalar_add G b c -> a = b.
Proof.
  intros H. replace a with (scalar_sub G (scalar_add G a c) c) by ring. rewrite H. ring.
Qed.

Lemma inv_inj (a b : Scalar G) : a <> 0s -> b <> 0s -> s_inv L a = s_inv L b -> a = b.
Proof.
  intros Ha Hb H.
  replace a with (scalar_mul G (scalar_mul G a (s_inv L b)) b) by (field; auto).
  rewrite <- H. field; auto.
Qed.

Lemma inv_mul (a b : Scalar G) : a <> 0s -> b <> 0s ->
  s_inv L (scalar_mul G a b) = scalar_mul G (s_inv L a) (s_inv L b).
Proof. intros; field; auto. Qed.

Lemma inv_inv (a : Scalar G) : a <> 0s -> s_inv L (s_inv L a) = a.
Proof. intros; field; split; auto using one_neq_zero. Qed.

Lemma add_sub_cancel (a b : Scalar G) : scalar_sub G (scalar_add G a b) b = a.
Proof. ring. Qed.

Lemma smul_comm (a b : Scalar G) : scalar_mul G a b = scalar_mul G b a.
Proof. ring. Qed.

Lemma smul_cancel_r (a b c : Scalar G) : c <> 0s -> scalar_mul G a c = scalar_mul G b c -> a = b.
Proof.
  intros Hc H. replace a with (scalar_mul G (scalar_mul G a c) (s_inv L c)) by (field; auto).
  rewrite H. field; auto.
Qed.

Lemma add_id_r (P : Elem G) : P [+] idn = P.
Proof. rewrite (elem_add_comm G L). apply (elem_add_id G L). Qed.

Lemma id_mul (a : Scalar G) : a [*] idn = idn.
Proof.
  rewrite <- (elem_mul_zero G L B), (elem_mul_mul G L).
  replace (scalar_mul G 0s a) with 0s by ring. reflexivity.
Qed.

(** Every equation between linear combinations follows from one in the
    scalar field by writing the elements as multiples of the base. *)
Lemma add_mul (P : Elem G) a b : a [*] P [+] b [*] P = scalar_add G a b [*] P.
Proof. symmetry. apply (elem_mul_sadd G L). Qed.

Lemma elem_opp_r (P : Elem G) : P [+] s_opp L (s_one L) [*] P = idn.
Proof.
  rewrite <- (elem_mul_one G L P) at 1. rewrite add_mul.
  replace (scalar_add G (s_one L) (s_opp L (s_one L))) with 0s by ring.
  apply (elem_mul_zero G L).
Qed.

Lemma add_cancel_r (P Q T : Elem G) : P [+] T = Q [+] T -> P = Q.
Proof.
  intros H.
  assert (H' : P [+] T [+] s_opp L (s_one L) [*] T = Q [+] T [+] s_opp L (s_one L) [*] T)
    by now rewrite H.
  rewrite <- !(elem_add_assoc G L), elem_opp_r, !add_id_r in H'. exact H'.
Qed.

Lemma add_cancel_l (P Q T : Elem G) : T [+] P = T [+] Q -> P = Q.
Proof.
  rewrite (elem_add_comm G L T P), (elem_add_comm G L T Q). apply add_cancel_r.
Qed.

Lemma mul_inv_cancel (P : Elem G) (k : Scalar G) : k <> 0s -> s_inv L k [*] (k [*] P) = P.
Proof.
  intros Hk. rewrite (elem_mul_mul G L), inv_r by auto. apply (elem_mul_one G L).
Qed.

Lemma mul_inv_cancel' (P : Elem G) (k : Scalar G) : k <> 0s -> k [*] (s_inv L k [*] P) = P.
Proof.
  intros Hk. rewrite (elem_mul_mul G L), inv_l by auto. apply (elem_mul_one G L).
Qed.

Lemma mul_eq_id (P : Elem G) (k : Scalar G) : k [*] P = idn -> k = 0s \/ P = idn.
Proof.
  intros H. destruct (scalar_eq_dec k 0s) as [|Hk]; [now left|right].
  rewrite <- (mul_inv_cancel P k Hk), H. apply id_mul.
Qed.

Lemma mul_neq_id (P : Elem G) (k : Scalar G) : k <> 0s -> P <> idn -> k [*] P <> idn.
Proof. intros Hk HP H. destruct (mul_eq_id _ _ H); auto. Qed.

Lemma mul_scalar_inj (P : Elem G) (a b : Scalar G) : P <> idn -> a [*] P = b [*] P -> a = b.
Proof.
  intros HP H. apply sub_zero_eq.
  destruct (mul_eq_id P (scalar_sub G a b)) as [|]; auto; [|contradiction].
  replace (scalar_sub G a b) with (scalar_add G a (s_opp L b)) by ring.
  rewrite (elem_mul_sadd G L), H, <- (elem_mul_sadd G L).
  replace (scalar_add G b (s_opp L b)) with 0s by ring. apply (elem_mul_zero G L).
Qed.

Lemma base_mul_inj (a b : Scalar G) : a [*] B = b [*] B -> a = b.
Proof. apply mul_scalar_inj, (base_not_identity G L). Qed.

Lemma mul_elem_inj (P Q : Elem G) (k : Scalar G) : k <> 0s -> k [*] P = k [*] Q -> P = Q.
Proof.
  intros Hk H. rewrite <- (mul_inv_cancel P k Hk), <- (mul_inv_cancel Q k Hk). now rewrite H.
Qed.

Lemma mul_comm2 (P : Elem G) a b : a [*] (b [*] P) = b [*] (a [*] P).
Proof.
  rewrite !(elem_mul_mul G L). f_equal. ring.
Qed.

(** Any element is a multiple of any non-identity element. *)
Lemma elem_generated_by (P Q : Elem G) : P <> idn -> exists k, Q = k [*] P.
Proof.
  intros HP. destruct (elem_generated G L P) as [p Hp], (elem_generated G L Q) as [q Hq].
  assert (Hp0 : p <> 0s) by (intros ->; apply HP; rewrite Hp; apply (elem_mul_zero G L)).
  exists (scalar_mul G (s_inv L p) q).
  rewrite Hq, Hp, (elem_mul_mul G L).
  f_equal. field; auto.
Qed.

(** Encodings are injective. *)
Lemma serialize_elem_inj (P Q : Elem G) : serialize_elem G P = serialize_elem G Q -> P = Q.
Proof.
  intros H.
  destruct (elem_eq_dec P idn) as [HP|HP], (elem_eq_dec Q idn) as [HQ|HQ]; subst; auto.
  - pose proof (deserialize_identity G L). pose proof (deserialize_serialize_elem G L Q HQ).
    congruence.
  - pose proof (deserialize_identity G L). pose proof (deserialize_serialize_elem G L P HP).
    congruence.
  - pose proof (deserialize_serialize_elem G L P HP).
    pose proof (deserialize_serialize_elem G L Q HQ). congruence.
Qed.

Lemma serialize_scalar_inj (a b : Scalar G) : serialize_scalar G a = serialize_scalar G b -> a = b.
Proof.
  intros H.
  destruct (scalar_eq_dec a 0s) as [HP|HP], (scalar_eq_dec b 0s) as [HQ|HQ]; subst; auto.
  - pose proof (deserialize_zero G L). pose proof (deserialize_serialize_scalar G L b HQ).
    congruence.
  - pose proof (deserialize_zero G L). pose proof (deserialize_serialize_scalar G L a HP).
    congruence.
  - pose proof (deserialize_serialize_scalar G L a HP).
    pose proof (deserialize_serialize_scalar G L b HQ). congruence.
Qed.

End GroupFacts.
