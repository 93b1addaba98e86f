(** * EllipticCurveFacts: the implementation for elliptic curves satisfies
    [GroupLaws] and [SuiteLaws] whenever the curve library and the hash
    satisfy theirs. *)
From Verif Require Export EllipticCurve XmdFacts.
From Verif Require Import PropSerde.
From Coq Require Import Znumtheory.
Open Scope Z_scope.

(** What is assumed of a curve: a group of prime order that fits in the
    field size, with x coordinates of that size; decompressing the
    coordinates of a point gives the point back, and no decompression gives
    the point at infinity. *)
Record CurveLaws (C : Curve) : Prop := {
  order_prime : prime (order C);
  order_fits : order C <= 256 ^ Z.of_nat (field_bytes C);
  field_bytes_bound : (1 <= field_bytes C)%nat /\ (N.of_nat (field_bytes C) <= 65534)%N;
  ep_eq_spec : forall P Q, ep_eq C P Q = true <-> P = Q;
  ep_add_comm : forall P Q, ep_add C P Q = ep_add C Q P;
  ep_add_assoc : forall P Q T, ep_add C P (ep_add C Q T) = ep_add C (ep_add C P Q) T;
  ep_add_id : forall P, ep_add C (ep_identity C) P = P;
  ep_mul_add : forall P a b,
    ep_mul C P (fadd (order C) a b) = ep_add C (ep_mul C P a) (ep_mul C P b);
  ep_mul_eadd : forall P Q a, ep_mul C (ep_add C P Q) a = ep_add C (ep_mul C P a) (ep_mul C Q a);
  ep_mul_mul : forall P a b, ep_mul C (ep_mul C P a) b = ep_mul C P (fmul (order C) a b);
  ep_mul_one : forall P, ep_mul C P (f1 (order C)) = P;
  ep_mul_zero : forall P, ep_mul C P (f0 (order C)) = ep_identity C;
  ep_generated : forall P, exists k, P = ep_mul C (ep_generator C) k;
  ep_gen_neq : ep_generator C <> ep_identity C;
  coords_identity : ep_coords C (ep_identity C) = None;
  coords_point : forall P, P <> ep_identity C -> exists x odd,
    ep_coords C P = Some (x, odd) /\ length x = field_bytes C /\ ep_decompress C x odd = Some P;
  decompress_point : forall x odd P, ep_decompress C x odd = Some P -> P <> ep_identity C;
  decompact_point : forall x P, ep_decompact C x = Some P -> P <> ep_identity C;
  from_xy_point : forall x y P, ep_from_xy C x y = Some P -> P <> ep_identity C
}.

Section Facts.
Context {C : Curve} (CL : CurveLaws C).
Local Notation n := (order C).
Local Notation w := (field_bytes C).
Local Notation Fn := (Fq (order C)).

Lemma n_gt1 : 1 < n. Proof. destruct (order_prime C CL); auto. Qed.

Lemma n_fval (s : Fn) : 0 <= fval s < n.
Proof. apply (fval_range n (order_prime C CL)). Qed.

Lemma fval_zero : fval (f0 n) = 0.
Proof. cbn [f0 of_Z fval]. apply Z.mod_0_l. pose proof n_gt1. lia. Qed.

Lemma fval_pos (s : Fn) : s <> f0 n <-> 0 < fval s.
Proof.
  pose proof (n_fval s). split.
  - intros H0. assert (fval s <> 0); [|lia]. intros E. apply H0, Fq_eq. now rewrite fval_zero.
  - intros Hs E. rewrite E, fval_zero in Hs. lia.
Qed.

Lemma feqb_zero (s : Fn) : feqb n s (f0 n) = false <-> s <> f0 n.
Proof.
  split.
  - intros H E. apply feqb_spec in E. congruence.
  - intros H. destruct (feqb n s (f0 n)) eqn:E; auto. apply feqb_spec in E. contradiction.
Qed.

(** Reading secret keys. *)
Lemma secret_from_bytes_ok b s :
  secret_from_bytes C b = Some s <-> be_Z b = fval s /\ 0 < fval s.
Proof.
  unfold secret_from_bytes, from_repr. pose proof (n_fval s) as Hs. pose proof (be_Z_range b) as Hr.
  destruct (Z.ltb_spec (be_Z b) n) as [Hb|Hb]; [|split; [discriminate|lia]].
  set (x := of_Z n (be_Z b)).
  assert (Hx : fval x = be_Z b) by (cbn [x of_Z fval]; apply Z.mod_small; lia).
  destruct (feqb n x (f0 n)) eqn:E.
  - apply feqb_spec in E. split; [discriminate|]. intros [E1 E2].
    rewrite <- E1, <- Hx, E, fval_zero in E2. lia.
  - apply feqb_zero, fval_pos in E. split.
    + intros [= <-]. split; [now rewrite Hx|exact E].
    + intros [E1 E2]. assert (Hxs : x = s) by (apply Fq_eq; lia). now rewrite Hxs.
Qed.

(** Exactly the big-endian encodings of 1 ... n - 1 on [w] bytes, or on 24 to
    [w - 1] bytes. *)
Lemma ec_scalar_ok b s :
  ec_deserialize_scalar C b = Ok s <->
  (length b = w \/ (24 <= length b < w)%nat) /\ be_Z b = fval s /\ 0 < fval s.
Proof.
  unfold ec_deserialize_scalar, secret_from_slice, MIN_SIZE.
  destruct (Nat.eqb_spec (length b) w) as [Hl|Hl].
  - destruct (secret_from_bytes C b) as [x|] eqn:E; cbn [ok_or].
    + split.
      * intros [= <-]. apply secret_from_bytes_ok in E. auto.
      * intros [_ H]. apply secret_from_bytes_ok in H. rewrite H in E. injection E as <-. reflexivity.
    + split; [discriminate|]. intros [_ H]. apply secret_from_bytes_ok in H. congruence.
  - destruct (Nat.leb_spec 24 (length b)) as [H1|H1]; cbn [andb].
    + destruct (Nat.ltb_spec (length b) w) as [H2|H2].
      * destruct (secret_from_bytes C (repeat x00 (w - length b) ++ b)) as [x|] eqn:E; cbn [ok_or].
        -- split.
           ++ intros [= <-]. apply secret_from_bytes_ok in E. rewrite be_Z_zeros in E. auto.
           ++ intros [_ H]. rewrite <- (be_Z_zeros (w - length b) b) in H.
              apply secret_from_bytes_ok in H. rewrite H in E. injection E as <-. reflexivity.
        -- split; [discriminate|]. intros [_ H]. rewrite <- (be_Z_zeros (w - length b) b) in H.
           apply secret_from_bytes_ok in H. congruence.
      * cbn [ok_or]. split; [discriminate|]. intros [[H|H] _]; lia.
    + cbn [ok_or]. split; [discriminate|]. intros [[H|H] _]; lia.
Qed.

Lemma ec_scalar_safe b :
  match ec_deserialize_scalar C b with
  | Ok s => s <> f0 n | Err e => e = EDeserialization | Panic | Diverge => False
  end.
Proof.
  destruct (ec_deserialize_scalar C b) as [s|e| |] eqn:E.
  - apply ec_scalar_ok in E. now apply fval_pos.
  - unfold ec_deserialize_scalar, ok_or in E. destruct (secret_from_slice C b); [discriminate|]. now injection E.
  - unfold ec_deserialize_scalar, ok_or in E. destruct (secret_from_slice C b); discriminate.
  - unfold ec_deserialize_scalar, ok_or in E. destruct (secret_from_slice C b); discriminate.
Qed.

(** Reading elements. *)
Lemma from_sec1_not_identity b P : from_sec1_bytes C b = Some P -> P <> ep_identity C.
Proof.
  unfold from_sec1_bytes. destruct (encoded_from_bytes C b) as [[| x odd | x y | x]|]; try discriminate.
  - apply (decompress_point C CL).
  - apply (from_xy_point C CL).
  - apply (decompact_point C CL).
Qed.

Lemma ec_elem_safe b :
  match ec_deserialize_elem C b with
  | Ok P => P <> ep_identity C | Err e => e = EDeserialization | Panic | Diverge => False
  end.
Proof.
  unfold ec_deserialize_elem. destruct (from_sec1_bytes C b) eqn:E; cbn; [|reflexivity].
  now apply from_sec1_not_identity in E.
Qed.

Lemma tag_N (odd : bool) : Byte.to_N (if odd then x03 else x02) = if odd then 3%N else 2%N.
Proof. now destruct odd. Qed.

Lemma ec_serialize_point P x odd : ep_coords C P = Some (x, odd) -> length x = w ->
  ec_serialize_elem C P = (if odd then x03 else x02) :: x.
Proof.
  intros E Hl. unfold ec_serialize_elem, to_encoded_point. rewrite E. cbn [length]. rewrite Hl, Nat.sub_diag.
  apply app_nil_r.
Qed.

Lemma ec_serialize_identity : ec_serialize_elem C (ep_identity C) = repeat x00 (S w).
Proof.
  unfold ec_serialize_elem, to_encoded_point. rewrite (coords_identity C CL).
  cbn [length]. replace (S w - 1)%nat with w by lia. reflexivity.
Qed.

Lemma ec_serialize_len P : length (ec_serialize_elem C P) = S w.
Proof.
  destruct (ep_eq C P (ep_identity C)) eqn:E.
  - apply (ep_eq_spec C CL) in E. subst P. rewrite ec_serialize_identity. apply repeat_length.
  - destruct (coords_point C CL P) as (x & odd & H1 & H2 & _).
    { intros F. apply (ep_eq_spec C CL) in F. congruence. }
    rewrite (ec_serialize_point P x odd) by auto. cbn. now rewrite H2.
Qed.

Lemma ec_elem_roundtrip P : P <> ep_identity C -> ec_deserialize_elem C (ec_serialize_elem C P) = Ok P.
Proof.
  intros HP. destruct (coords_point C CL P HP) as (x & odd & H1 & H2 & H3).
  rewrite (ec_serialize_point P x odd) by auto.
  unfold ec_deserialize_elem, from_sec1_bytes, encoded_from_bytes. rewrite tag_N.
  destruct odd; rewrite H2, Nat.eqb_refl, H3; reflexivity.
Qed.

Lemma ec_elem_identity : ec_deserialize_elem C (ec_serialize_elem C (ep_identity C)) = Err EDeserialization.
Proof.
  rewrite ec_serialize_identity. unfold ec_deserialize_elem, from_sec1_bytes, encoded_from_bytes.
  cbn [repeat]. change (Byte.to_N x00) with 0%N. cbv iota. rewrite repeat_length.
  destruct (field_bytes_bound C CL) as [Hw _]. destruct (Nat.eqb_spec w 0); [lia|reflexivity].
Qed.

(** Sampling. *)
Lemma field_random_ok fuel R st :
  match fst (field_random C fuel R st) with Ok _ | Diverge => True | Err _ | Panic => False end.
Proof.
  revert st. induction fuel as [|fuel IH]; intros st; cbn [field_random]; [exact I|].
  destruct (fill_bytes R st w) as [b st']. destruct (from_repr C b); [exact I|apply IH].
Qed.

Lemma ec_random_ok fuel R st :
  match fst (ec_random_scalar C fuel R st) with
  | Ok s => s <> f0 n | Diverge => True | Err _ | Panic => False
  end.
Proof.
  revert st. induction fuel as [|fuel IH]; intros st; cbn [ec_random_scalar]; [exact I|].
  pose proof (field_random_ok (S fuel) R st) as H. destruct (field_random C (S fuel) R st) as [[s|e| |] st'];
    cbn in *; try contradiction; auto.
  destruct (feqb n s (f0 n)) eqn:E; [apply IH|]. now apply feqb_zero.
Qed.

Lemma scalar_bytes_be (s : Fn) : be_Z (I2OSP (Z.to_N (fval s)) w) = fval s.
Proof. apply be_Z_to_bytes. pose proof (n_fval s). pose proof (order_fits C CL). lia. Qed.

Definition curve_group_laws (fuel : nat) : GroupLaws (CurveGroup C fuel).
Proof.
  refine {| s_one := f1 n : Scalar (CurveGroup C fuel); s_opp := fopp n; s_inv := finv n |}.
  - exact (fq_field n (order_prime C CL)).
  - exact (@feqb_spec n).
  - intros a. exact (feqb_spec a (f0 n)).
  - exact (ep_eq_spec C CL).
  - exact (ep_add_comm C CL).
  - exact (ep_add_assoc C CL).
  - exact (ep_add_id C CL).
  - exact (ep_mul_add C CL).
  - exact (ep_mul_eadd C CL).
  - exact (ep_mul_mul C CL).
  - exact (ep_mul_one C CL).
  - exact (ep_mul_zero C CL).
  - exact (ep_generated C CL).
  - exact (ep_gen_neq C CL).
  - intros a Ha. cbn [invert_scalar CurveGroup]. unfold ec_invert_scalar.
    now rewrite (proj2 (feqb_zero a) Ha).
  - intros a e. cbn [invert_scalar CurveGroup]. unfold ec_invert_scalar. destruct (feqb n a (f0 n)); discriminate.
  - intros R st. exact (ec_random_ok fuel R st).
  - cbn [elem_len CurveGroup]. destruct (field_bytes_bound C CL). lia.
  - intros e. unfold len. cbn [serialize_elem elem_len CurveGroup]. now rewrite ec_serialize_len.
  - intros s. unfold len. cbn [serialize_scalar scalar_len CurveGroup]. now rewrite I2OSP_length.
  - exact ec_elem_roundtrip.
  - exact ec_elem_identity.
  - intros s Hs. apply ec_scalar_ok. cbn [serialize_scalar CurveGroup]. rewrite scalar_bytes_be, I2OSP_length.
    split; [auto|]. split; [reflexivity|]. now apply fval_pos.
  - cbn [serialize_scalar deserialize_scalar zero_scalar CurveGroup].
    pose proof (ec_scalar_safe (I2OSP (Z.to_N (fval (f0 n))) w)) as H.
    destruct (ec_deserialize_scalar C (I2OSP (Z.to_N (fval (f0 n))) w)) as [s|e| |] eqn:E; try contradiction.
    + apply ec_scalar_ok in E as (_ & E1 & E2). rewrite scalar_bytes_be, fval_zero in E1. lia.
    + now subst.
  - exact ec_elem_safe.
  - exact ec_scalar_safe.
Defined.

Context {H : HashFn} (HL : HashLaws H).

(** The lengths hashed to must be possible for expand_message_xmd. *)
Definition okm_fits : Prop :=
  valid_len H (field_okm C + field_okm C) /\ valid_len H (scalar_okm C).

Context (Hokm : okm_fits).

(** RFC 9380, sections 3 and 5.2 (hash_to_curve with two field elements), and
    RFC 9497, sections 4.3 to 4.5 (HashToScalar). *)
Definition ec_HashToGroup (msg DST : bytes) : EPoint C :=
  let L := N.to_nat (field_okm C) in
  let u := expand_message_xmd (digest H) (output_size H) (block_size H) msg DST
             (field_okm C + field_okm C) in
  let point_of v := clear_cofactor C (map_to_curve C (field_from_okm C v)) in
  ep_add C (point_of (firstn L u)) (point_of (skipn L u)).
Definition ec_HashToScalar (msg DST : bytes) : Fn :=
  of_Z n (be_Z (expand_message_xmd (digest H) (output_size H) (block_size H) msg DST (scalar_okm C))).

Lemma ec_hash_to_curve_ok msgs tags : concat tags <> [] ->
  ec_hash_to_curve C H msgs tags = Ok (ec_HashToGroup (concat msgs) (concat tags)).
Proof.
  intros Ht. unfold ec_hash_to_curve, hash_to_field.
  destruct (expand_fill2_ok H HL msgs tags (field_okm C) (field_okm C) Ht (proj1 Hokm))
    as (x & x1 & x2 & E & E1 & E2).
  replace (field_okm C * N.of_nat 2)%N with (field_okm C + field_okm C)%N by lia.
  rewrite E. cbn [map_err bind fill_all]. rewrite E1, E2. reflexivity.
Qed.

Lemma ec_hash_to_scalar_ok msgs tags : concat tags <> [] ->
  ec_hash_to_scalar C H msgs tags = Ok (ec_HashToScalar (concat msgs) (concat tags)).
Proof.
  intros Ht. unfold ec_hash_to_scalar, hash_to_field.
  destruct (expand_fill_ok H HL msgs tags (scalar_okm C) Ht (proj2 Hokm)) as (x & x' & E & E').
  replace (scalar_okm C * N.of_nat 1)%N with (scalar_okm C) by lia.
  rewrite E. cbn [map_err bind fill_all]. rewrite E'. reflexivity.
Qed.

Lemma ec_hash_empty_tag msgs tags : concat tags = [] ->
  ec_hash_to_curve C H msgs tags = Err IInput /\ ec_hash_to_scalar C H msgs tags = Err IInput.
Proof.
  intros Ht. unfold ec_hash_to_curve, ec_hash_to_scalar, hash_to_field.
  now rewrite !(expand_message_empty_tag H).
Qed.

Definition curve_suite_laws (fuel : nat) (id : bytes) (Hid : (len id <= 65513)%N)
  : SuiteLaws (CurveSuite C fuel id H).
Proof.
  refine {| group_laws := curve_group_laws fuel : GroupLaws (CSGroup (CurveSuite C fuel id H));
            HashToGroup := ec_HashToGroup : bytes -> bytes -> elem (CurveSuite C fuel id H);
            HashToScalar := ec_HashToScalar : bytes -> bytes -> scalar (CurveSuite C fuel id H) |}.
  - exact ec_hash_to_curve_ok.
  - exact ec_hash_to_scalar_ok.
  - exact (hl_len H HL).
  - exact (hl_bound H HL).
  - exact Hid.
Defined.

Lemma curve_zeroize (fuel : nat) : ZeroizeLaws (CurveGroup C fuel).
Proof.
  split; try reflexivity.
  - cbn [serialize_scalar zero_scalar scalar_len CurveGroup]. rewrite fval_zero, Nat2N.id.
    symmetry. apply repeat_zero_I2OSP.
  - cbn [serialize_elem identity_elem elem_len CurveGroup]. rewrite Nat2N.id. apply ec_serialize_identity.
Qed.

End Facts.
