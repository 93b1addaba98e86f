(** * PropGroups: the two implementations of [Group] in the crate.

    Properties C38 (ristretto.rs and elliptic_curve.rs meet the contract of
    the [Group] trait), C39 (which private keys they accept), C42 (they hash
    as RFC 9380 says) and the two instances of C37 (a zero blinding factor).

    The hypotheses [DalekLaws] and [CurveLaws] are about the curve libraries
    (group laws and point encodings), [HashLaws] is about the hash. *)
From Verif Require Import Ristretto RistrettoFacts EllipticCurve EllipticCurveFacts.
From Verif Require Import Oprf Voprf Poprf Spec PropSerde PropDanger Zq.
From Coq Require Import Znumtheory.
Open Scope Z_scope.

(** ** C38: the contract.  Every theorem of the other files that is stated for
    a lawful suite applies to both implementations. *)
Theorem C38_ristretto_laws :
  forall (D : Dalek), DalekLaws D -> forall (H : HashFn), HashLaws H -> forall fuel,
  inhabited (SuiteLaws (RistrettoSuite D fuel H)) /\
  ZeroizeLaws (CSGroup (RistrettoSuite D fuel H)).
Proof.
  intros D DL H HL fuel. split; [|exact (ristretto_zeroize DL fuel)].
  constructor. exact (ristretto_suite_laws DL HL fuel).
Qed.

Theorem C38_curve_laws :
  forall (C : Curve), CurveLaws C -> forall (H : HashFn), HashLaws H ->
  okm_fits (C := C) (H := H) -> forall fuel id, (len id <= 65513)%N ->
  inhabited (SuiteLaws (CurveSuite C fuel id H)) /\
  ZeroizeLaws (CSGroup (CurveSuite C fuel id H)).
Proof.
  intros C CL H HL Hokm fuel id Hid. split; [|exact (curve_zeroize CL fuel)].
  constructor. exact (curve_suite_laws CL HL Hokm fuel id Hid).
Qed.

(** ** C38: encodings *)

(** [Ristretto255]: one encoding for each element, one for each scalar; the
    identity and zero are written as zeros and never read back; every other
    string is [Error::Deserialization]. *)
Theorem C38_ristretto_encodings :
  forall (D : Dalek), DalekLaws D -> forall fuel,
  let G := RistrettoGroup D fuel in
  (* elements *)
  (forall P, length (serialize_elem G P) = 32%nat) /\
  (forall b P, deserialize_elem G b = Ok P <-> b = serialize_elem G P /\ P <> identity_elem G) /\
  (forall b, (forall P, P <> identity_elem G -> b <> serialize_elem G P) ->
             deserialize_elem G b = Err EDeserialization) /\
  serialize_elem G (identity_elem G) = repeat x00 32 /\
  (* scalars: 32 bytes, little endian, below the group order *)
  (forall s, length (serialize_scalar G s) = 32%nat /\ le_Z (serialize_scalar G s) = fval s) /\
  (forall b s, deserialize_scalar G b = Ok s <->
               length b = 32%nat /\ 0 < le_Z b < ell /\ fval s = le_Z b) /\
  (forall b, ~ (length b = 32%nat /\ 0 < le_Z b < ell) ->
             deserialize_scalar G b = Err EDeserialization) /\
  serialize_scalar G (zero_scalar G) = repeat x00 32.
Proof.
  intros D DL fuel G.
  split; [exact (compress_len D DL)|].
  split; [exact (ristretto_elem_ok DL)|].
  split.
  { intros b Hb. pose proof (ristretto_elem_safe DL b) as Hs.
    cbn [deserialize_elem G RistrettoGroup].
    destruct (ristretto_deserialize_elem D b) as [P|e| |] eqn:E; try contradiction.
    - apply (ristretto_elem_ok DL) in E as [E HP]. exfalso. exact (Hb P HP E).
    - now subst. }
  split; [exact (compress_identity D DL)|].
  split.
  { intros s. split; [apply le_bytes_length|apply scalar_bytes_value]. }
  assert (Hok : forall b s, deserialize_scalar G b = Ok s <->
               length b = 32%nat /\ 0 < le_Z b < ell /\ fval s = le_Z b).
  { intros b s. cbn [deserialize_scalar G RistrettoGroup]. pose proof (ell_fval s) as Hr. split.
    - intros E. apply ristretto_scalar_ok in E as (E1 & E2 & E3).
      split; [exact E1|]. rewrite E2. split; [split; [exact E3|exact (proj2 Hr)]|reflexivity].
    - intros (E1 & E2 & E3). apply ristretto_scalar_ok.
      split; [exact E1|]. split; [now symmetry|]. rewrite E3. exact (proj1 E2). }
  split; [exact Hok|]. split.
  - intros b Hb. cbn [deserialize_scalar G RistrettoGroup].
    pose proof (ristretto_scalar_safe b) as Hs.
    destruct (ristretto_deserialize_scalar b) as [s|e| |] eqn:E; try contradiction; [|now subst].
    exfalso. apply Hb. change (deserialize_scalar G b = Ok s) in E. apply Hok in E. tauto.
  - exact (zero_scalar_bytes _ (ristretto_zeroize DL fuel)).
Qed.

(** The elliptic-curve implementation: elements are written in the compressed
    SEC1 form and are read from four forms, the compressed ones, the
    uncompressed one and the compact one; the identity is written as zeros
    and never read back; scalars are big endian and may be read from fewer
    bytes. *)
Theorem C38_curve_encodings :
  forall (C : Curve), CurveLaws C -> forall fuel,
  let G := CurveGroup C fuel in
  let w := field_bytes C in
  (* elements *)
  (forall P, length (serialize_elem G P) = S w) /\
  (forall P, P <> identity_elem G -> exists x odd,
     ep_coords C P = Some (x, odd) /\ length x = w /\
     serialize_elem G P = (if odd then x03 else x02) :: x) /\
  (forall P, P <> identity_elem G -> deserialize_elem G (serialize_elem G P) = Ok P) /\
  serialize_elem G (identity_elem G) = repeat x00 (S w) /\
  (forall b P, deserialize_elem G b = Ok P <->
     (exists x, length x = w /\
        (b = x02 :: x /\ ep_decompress C x false = Some P \/
         b = x03 :: x /\ ep_decompress C x true = Some P \/
         b = x05 :: x /\ ep_decompact C x = Some P)) \/
     (exists x y, length x = w /\ length y = w /\ b = x04 :: x ++ y /\ ep_from_xy C x y = Some P)) /\
  (forall b P, deserialize_elem G b = Ok P -> P <> identity_elem G) /\
  (forall b, (forall P, deserialize_elem G b <> Ok P) -> deserialize_elem G b = Err EDeserialization) /\
  (* scalars *)
  (forall s, length (serialize_scalar G s) = w /\ be_Z (serialize_scalar G s) = fval s) /\
  (forall b s, deserialize_scalar G b = Ok s <->
     (length b = w \/ (24 <= length b < w)%nat) /\ 0 < be_Z b < order C /\ fval s = be_Z b) /\
  (forall b, ~ ((length b = w \/ (24 <= length b < w)%nat) /\ 0 < be_Z b < order C) ->
     deserialize_scalar G b = Err EDeserialization) /\
  serialize_scalar G (zero_scalar G) = repeat x00 w.
Proof.
  intros C CL fuel G w.
  split; [exact (ec_serialize_len CL)|].
  split.
  { intros P HP. destruct (coords_point C CL P HP) as (x & odd & H1 & H2 & _).
    exists x, odd. split; [exact H1|]. split; [exact H2|]. now apply (ec_serialize_point (C := C)). }
  split; [exact (ec_elem_roundtrip CL)|].
  split; [exact (ec_serialize_identity CL)|].
  split.
  { intros b P. cbn [deserialize_elem G CurveGroup]. unfold ec_deserialize_elem, from_sec1_bytes.
    split.
    - intros E. unfold encoded_from_bytes in E. destruct b as [|t r]; [discriminate|].
      fold w in E.
      destruct (Byte.to_N t) as [|p] eqn:Et.
      { destruct (length r =? 0)%nat; discriminate. }
      assert (Ht : Byte.of_N (Npos p) = Some t) by (rewrite <- Et; apply Byte.of_to_N).
      destruct p as [[[|[]|]|[]|]|[[]|[]|]|]; cbv beta iota in E; try discriminate;
        cbn in Ht; injection Ht as <-.
      + destruct (Nat.eqb_spec (length r) w) as [Hl|]; [|discriminate].
        destruct (ep_decompact C r) as [Q|] eqn:Ed; [|discriminate]. injection E as <-.
        left. exists r. auto.
      + destruct (Nat.eqb_spec (length r) w) as [Hl|]; [|discriminate].
        destruct (ep_decompress C r true) as [Q|] eqn:Ed; [|discriminate]. injection E as <-.
        left. exists r. auto.
      + destruct (Nat.eqb_spec (length r) (w + w)) as [Hl|]; [|discriminate].
        destruct (ep_from_xy C (firstn w r) (skipn w r)) as [Q|] eqn:Ed; [|discriminate]. injection E as <-.
        right. exists (firstn w r), (skipn w r). rewrite firstn_length, skipn_length, firstn_skipn.
        repeat split; auto; lia.
      + destruct (Nat.eqb_spec (length r) w) as [Hl|]; [|discriminate].
        destruct (ep_decompress C r false) as [Q|] eqn:Ed; [|discriminate]. injection E as <-.
        left. exists r. auto.
    - intros [(x & Hx & [[-> E]|[[-> E]|[-> E]]])|(x & y & Hx & Hy & -> & E)];
        unfold encoded_from_bytes.
      + change (Byte.to_N x02) with 2%N. cbv iota. fold w. rewrite Hx, Nat.eqb_refl, E. reflexivity.
      + change (Byte.to_N x03) with 3%N. cbv iota. fold w. rewrite Hx, Nat.eqb_refl, E. reflexivity.
      + change (Byte.to_N x05) with 5%N. cbv iota. fold w. rewrite Hx, Nat.eqb_refl, E. reflexivity.
      + change (Byte.to_N x04) with 4%N. cbv iota. fold w. rewrite app_length, Hx, Hy, Nat.eqb_refl.
        rewrite <- Hx, firstn_app, Nat.sub_diag, firstn_all, firstn_O, app_nil_r.
        rewrite skipn_app, Nat.sub_diag, skipn_all, skipn_O. cbn [app]. rewrite E. reflexivity. }
  split.
  { intros b P E. pose proof (ec_elem_safe CL b) as Hs.
    cbn [deserialize_elem G CurveGroup] in E. now rewrite E in Hs. }
  split.
  { intros b Hb. pose proof (ec_elem_safe CL b) as Hs. cbn [deserialize_elem G CurveGroup] in *.
    destruct (ec_deserialize_elem C b) as [P|e| |] eqn:E; try contradiction; [|now subst].
    now destruct (Hb P). }
  split.
  { intros s. split; [apply I2OSP_length|apply (scalar_bytes_be CL)]. }
  assert (Hok : forall b s, deserialize_scalar G b = Ok s <->
     (length b = w \/ (24 <= length b < w)%nat) /\ 0 < be_Z b < order C /\ fval s = be_Z b).
  { intros b s. cbn [deserialize_scalar G CurveGroup]. pose proof (n_fval CL s) as Hr.
    pose proof (ec_scalar_ok CL b s) as He. fold w in He.
    split; [intros E; apply He in E as (E1 & E2 & E3)|intros (E1 & E2 & E3); apply He];
      repeat split; auto; lia. }
  split; [exact Hok|]. split.
  - intros b Hb. cbn [deserialize_scalar G CurveGroup]. pose proof (ec_scalar_safe CL b) as Hs.
    destruct (ec_deserialize_scalar C b) as [s|e| |] eqn:E; try contradiction; [|now subst].
    exfalso. apply Hb. change (deserialize_scalar G b = Ok s) in E. apply Hok in E. tauto.
  - pose proof (zero_scalar_bytes _ (curve_zeroize CL fuel)) as Hz.
    cbn [scalar_len CurveGroup] in Hz. rewrite Nat2N.id in Hz. exact Hz.
Qed.

(** ** C38: sampling.  The result is the first acceptable draw; nothing else
    is drawn, before or after. *)
Fixpoint state_after (R : Rng) (n : nat) (st : rng_state R) (i : nat) : rng_state R :=
  match i with
  | O => st
  | S j => snd (fill_bytes R (state_after R n st j) n)
  end.
(** The bytes of draw number [i] when every draw asks for [n] bytes. *)
Definition draw (R : Rng) (n : nat) (st : rng_state R) (i : nat) : bytes :=
  fst (fill_bytes R (state_after R n st i) n).

Lemma state_after_shift R n st i :
  state_after R n (snd (fill_bytes R st n)) i = state_after R n st (S i).
Proof. induction i as [|i IH]; [reflexivity|]. cbn [state_after] in *. now rewrite IH. Qed.
Lemma draw_shift R n st i : draw R n (snd (fill_bytes R st n)) i = draw R n st (S i).
Proof. unfold draw. now rewrite state_after_shift. Qed.

Lemma ristretto_random_first fuel (R : Rng) : forall (st : rng_state R),
  let value i := le_Z (draw R 64 st i) mod ell in
  (forall i, (i < fuel)%nat -> (forall j, (j < i)%nat -> value j = 0) -> value i <> 0 ->
     exists s, ristretto_random_scalar fuel R st = (Ok s, state_after R 64 st (S i)) /\ fval s = value i) /\
  ((forall j, (j < fuel)%nat -> value j = 0) -> fst (ristretto_random_scalar fuel R st) = Diverge).
Proof.
  induction fuel as [|fuel IH]; intros st value.
  - split; [lia|reflexivity].
  - cbn [ristretto_random_scalar]. unfold dalek_scalar_random.
    destruct (fill_bytes R st 64) as [b st'] eqn:Ef.
    assert (Hb : b = draw R 64 st 0) by (unfold draw; cbn [state_after]; now rewrite Ef).
    assert (Hst : st' = snd (fill_bytes R st 64)) by now rewrite Ef.
    assert (Hv : fval (from_bytes_mod_order_wide b) = value 0%nat) by (unfold value; now rewrite Hb).
    assert (Hz : feqb ell (from_bytes_mod_order_wide b) (f0 ell) = true <-> value 0%nat = 0).
    { unfold feqb. rewrite Z.eqb_eq, Hv, fval_f0. reflexivity. }
    destruct (IH st') as [IH1 IH2]. subst st'.
    split.
    + intros i Hi Hbad Hgood. destruct i as [|i].
      * destruct (feqb ell (from_bytes_mod_order_wide b) (f0 ell)) eqn:E; [now destruct Hgood; apply Hz|].
        cbn [negb]. eexists. split; [reflexivity|exact Hv].
      * rewrite (proj2 Hz) by (apply Hbad; lia). cbn [negb].
        destruct (IH1 i) as (s & E & Es); [lia| | |].
        -- intros j Hj. rewrite draw_shift. apply (Hbad (S j)). lia.
        -- rewrite draw_shift. exact Hgood.
        -- exists s. rewrite E, state_after_shift. split; [reflexivity|]. rewrite Es, draw_shift. reflexivity.
    + intros Hbad. rewrite (proj2 Hz) by (apply Hbad; lia). cbn [negb].
      apply IH2. intros j Hj. rewrite draw_shift. apply (Hbad (S j)). lia.
Qed.

Theorem C38_ristretto_random :
  forall (D : Dalek) fuel (R : Rng) (st : rng_state R),
  let G := RistrettoGroup D fuel in
  let value i := le_Z (draw R 64 st i) mod ell in
  (forall i, (i < fuel)%nat -> (forall j, (j < i)%nat -> value j = 0) -> value i <> 0 ->
     exists s, random_scalar G R st = (Ok s, state_after R 64 st (S i)) /\ fval s = value i) /\
  ((forall j, (j < fuel)%nat -> value j = 0) -> fst (random_scalar G R st) = Diverge).
Proof. intros D fuel R st. exact (ristretto_random_first fuel R st). Qed.

Section CurveRandom.
Context (C : Curve) (CL : CurveLaws C).
Local Notation w := (field_bytes C).

(** [field_random]: the first draw below the order. *)
Lemma field_random_first R fuel : forall st i, (i < fuel)%nat ->
  (forall j, (j < i)%nat -> order C <= be_Z (draw R w st j)) -> be_Z (draw R w st i) < order C ->
  field_random C fuel R st = (Ok (of_Z (order C) (be_Z (draw R w st i))), state_after R w st (S i)).
Proof.
  induction fuel as [|fuel IH]; intros st i Hi Hbad Hgood; [lia|]. cbn [field_random].
  destruct (fill_bytes R st w) as [b st'] eqn:Ef.
  assert (Hb : b = draw R w st 0) by (unfold draw; cbn [state_after]; now rewrite Ef).
  assert (Hst : st' = snd (fill_bytes R st w)) by now rewrite Ef. subst st'.
  unfold from_repr. destruct i as [|i].
  - rewrite Hb, (proj2 (Z.ltb_lt _ _)) by auto. reflexivity.
  - rewrite Hb, (proj2 (Z.ltb_ge _ _)) by (apply Hbad; lia).
    rewrite (IH (snd (fill_bytes R st w)) i).
    + now rewrite draw_shift, state_after_shift.
    + lia.
    + intros j Hj. rewrite draw_shift. apply Hbad. lia.
    + now rewrite draw_shift.
Qed.

Lemma field_random_none R fuel : forall st,
  (forall j, (j < fuel)%nat -> order C <= be_Z (draw R w st j)) ->
  field_random C fuel R st = (Diverge, state_after R w st fuel).
Proof.
  induction fuel as [|fuel IH]; intros st Hbad; [reflexivity|]. cbn [field_random].
  destruct (fill_bytes R st w) as [b st'] eqn:Ef.
  assert (Hb : b = draw R w st 0) by (unfold draw; cbn [state_after]; now rewrite Ef).
  assert (Hst : st' = snd (fill_bytes R st w)) by now rewrite Ef. subst st'.
  unfold from_repr. rewrite Hb, (proj2 (Z.ltb_ge _ _)) by (apply Hbad; lia).
  rewrite IH; [now rewrite state_after_shift|].
  intros j Hj. rewrite draw_shift. apply Hbad. lia.
Qed.

Lemma state_after_add R n st a b :
  state_after R n (state_after R n st a) b = state_after R n st (a + b).
Proof.
  induction b as [|b IH]; [now rewrite Nat.add_0_r|]. rewrite Nat.add_succ_r. cbn [state_after]. now rewrite IH.
Qed.
Lemma draw_add R n st a b : draw R n (state_after R n st a) b = draw R n st (a + b).
Proof. unfold draw. now rewrite state_after_add. Qed.

(** The least index below a bound with a decidable property. *)
Lemma first_below (P : nat -> bool) n :
  (exists i, (i < n)%nat /\ P i = true /\ forall j, (j < i)%nat -> P j = false) \/
  (forall j, (j < n)%nat -> P j = false).
Proof.
  induction n as [|n [(i & H1 & H2 & H3)|IH]].
  - right. lia.
  - left. exists i. auto with arith.
  - destruct (P n) eqn:E; [left; exists n; auto|].
    right. intros j Hj. destruct (Nat.eq_dec j n) as [->|]; auto. apply IH. lia.
Qed.

Definition acceptable (b : bytes) : bool := ((0 <? be_Z b) && (be_Z b <? order C))%bool.

Lemma acceptable_true b : acceptable b = true <-> 0 < be_Z b < order C.
Proof. unfold acceptable. rewrite Bool.andb_true_iff, !Z.ltb_lt. tauto. Qed.
Lemma acceptable_false b : acceptable b = false <-> be_Z b = 0 \/ order C <= be_Z b.
Proof.
  pose proof (be_Z_range b). unfold acceptable. rewrite Bool.andb_false_iff, !Z.ltb_ge. lia.
Qed.

Lemma ec_random_first R fuel : forall st i, (i < fuel)%nat ->
  (forall j, (j < i)%nat -> acceptable (draw R w st j) = false) ->
  acceptable (draw R w st i) = true ->
  ec_random_scalar C fuel R st = (Ok (of_Z (order C) (be_Z (draw R w st i))), state_after R w st (S i)).
Proof.
  pose proof (n_gt1 CL) as Hn.
  induction fuel as [|fuel IH]; intros st i Hi Hbad Hgood; [lia|]. cbn [ec_random_scalar].
  pose proof (proj1 (acceptable_true _) Hgood) as Hr.
  destruct (first_below (fun k => be_Z (draw R w st k) <? order C) (S i)) as [(k & Hk & Ek & Hmin)|Hno].
  - apply Z.ltb_lt in Ek.
    rewrite (field_random_first R (S fuel) st k) by
      (auto; try lia; intros j Hj; apply Z.ltb_ge; now apply Hmin).
    destruct (Nat.eq_dec k i) as [->|Hki].
    + assert (E : feqb (order C) (of_Z (order C) (be_Z (draw R w st i))) (f0 (order C)) = false).
      { unfold feqb. apply Z.eqb_neq. rewrite (fval_zero CL). cbn. rewrite Z.mod_small by lia. lia. }
      now rewrite E.
    + assert (Hk0 : be_Z (draw R w st k) = 0).
      { assert (Hka : (k < i)%nat) by lia. specialize (Hbad k Hka). apply acceptable_false in Hbad. lia. }
      assert (E : feqb (order C) (of_Z (order C) (be_Z (draw R w st k))) (f0 (order C)) = true).
      { unfold feqb. apply Z.eqb_eq. rewrite (fval_zero CL). cbn. rewrite Hk0. apply Z.mod_0_l. lia. }
      rewrite E. rewrite (IH (state_after R w st (S k)) (i - S k)%nat).
      * rewrite draw_add, state_after_add. do 2 f_equal; [do 3 f_equal; lia|lia].
      * lia.
      * intros j Hj. rewrite draw_add. apply Hbad. lia.
      * rewrite draw_add. replace (S k + (i - S k))%nat with i by lia. exact Hgood.
  - exfalso. specialize (Hno i (Nat.lt_succ_diag_r i)). apply Z.ltb_ge in Hno. lia.
Qed.

Lemma ec_random_none R fuel : forall st,
  (forall j, acceptable (draw R w st j) = false) -> fst (ec_random_scalar C fuel R st) = Diverge.
Proof.
  pose proof (n_gt1 CL) as Hn.
  induction fuel as [|fuel IH]; intros st Hbad; [reflexivity|]. cbn [ec_random_scalar].
  destruct (first_below (fun k => be_Z (draw R w st k) <? order C) (S fuel)) as [(k & Hk & Ek & Hmin)|Hno].
  - apply Z.ltb_lt in Ek.
    rewrite (field_random_first R (S fuel) st k) by
      (auto; try lia; intros j Hj; apply Z.ltb_ge; now apply Hmin).
    assert (Hk0 : be_Z (draw R w st k) = 0) by (pose proof (proj1 (acceptable_false _) (Hbad k)); lia).
    assert (E : feqb (order C) (of_Z (order C) (be_Z (draw R w st k))) (f0 (order C)) = true).
    { unfold feqb. apply Z.eqb_eq. rewrite (fval_zero CL). cbn. rewrite Hk0. apply Z.mod_0_l. lia. }
    rewrite E. apply IH. intros j. rewrite draw_add. apply Hbad.
  - rewrite field_random_none; [reflexivity|]. intros j Hj. apply Z.ltb_ge. now apply Hno.
Qed.
End CurveRandom.

Theorem C38_curve_random :
  forall (C : Curve), CurveLaws C -> forall fuel (R : Rng) (st : rng_state R),
  let G := CurveGroup C fuel in
  let value i := be_Z (draw R (field_bytes C) st i) in
  (forall i, (i < fuel)%nat -> (forall j, (j < i)%nat -> ~ 0 < value j < order C) ->
     0 < value i < order C ->
     exists s, random_scalar G R st = (Ok s, state_after R (field_bytes C) st (S i)) /\ fval s = value i) /\
  ((forall j, ~ 0 < value j < order C) -> fst (random_scalar G R st) = Diverge).
Proof.
  intros C CL fuel R st G value. cbn [random_scalar G CurveGroup].
  assert (Hbad : forall j, ~ 0 < value j < order C -> acceptable C (draw R (field_bytes C) st j) = false).
  { intros j Hj. destruct (acceptable C _) eqn:E; auto. apply acceptable_true in E. contradiction. }
  split.
  - intros i Hi Hb Hg. exists (of_Z (order C) (value i)). split.
    + apply (ec_random_first C CL); auto. now apply acceptable_true.
    + cbn. apply Z.mod_small. lia.
  - intros Hb. apply (ec_random_none C CL). auto.
Qed.

(** ** C42: hashing.  [hash_to_curve] and [hash_to_scalar] compute
    [expand_message_xmd] of RFC 9380 on the concatenation of the slices they
    are given (so how the caller slices does not matter), for messages and
    tags of any length except the empty tag, which is [Error::Input]. *)
Theorem C42_ristretto_hash :
  forall (D : Dalek), DalekLaws D -> forall (H : HashFn), HashLaws H -> forall fuel,
  let G := RistrettoGroup D fuel in
  let expand msg tag := expand_message_xmd (digest H) (output_size H) (block_size H) msg tag 64 in
  forall msgs tags,
  (concat tags <> [] ->
     hash_to_curve G H msgs tags = Ok (from_uniform_bytes D (expand (concat msgs) (concat tags))) /\
     exists s, hash_to_scalar G H msgs tags = Ok s /\
               fval s = le_Z (expand (concat msgs) (concat tags)) mod ell) /\
  (concat tags = [] ->
     hash_to_curve G H msgs tags = Err IInput /\ hash_to_scalar G H msgs tags = Err IInput).
Proof.
  intros D DL H HL fuel G expand msgs tags. split; intros Ht.
  - split.
    + exact (hash_to_curve_spec _ (ristretto_suite_laws DL HL fuel) msgs tags Ht).
    + eexists. split; [exact (hash_to_scalar_spec _ (ristretto_suite_laws DL HL fuel) msgs tags Ht)|reflexivity].
  - cbn [hash_to_curve hash_to_scalar G RistrettoGroup].
    unfold ristretto_hash_to_curve, ristretto_hash_to_scalar.
    rewrite (uniform_bytes_empty (H := H)) by auto. auto.
Qed.

Theorem C42_curve_hash :
  forall (C : Curve), CurveLaws C -> forall (H : HashFn), HashLaws H ->
  okm_fits (C := C) (H := H) -> forall fuel,
  let G := CurveGroup C fuel in
  let L := N.to_nat (field_okm C) in
  let expand msg tag n := expand_message_xmd (digest H) (output_size H) (block_size H) msg tag n in
  let point u := clear_cofactor C (map_to_curve C (field_from_okm C u)) in
  forall msgs tags,
  (concat tags <> [] ->
     (let u := expand (concat msgs) (concat tags) (field_okm C + field_okm C)%N in
      hash_to_curve G H msgs tags = Ok (ep_add C (point (firstn L u)) (point (skipn L u)))) /\
     exists s, hash_to_scalar G H msgs tags = Ok s /\
               fval s = be_Z (expand (concat msgs) (concat tags) (scalar_okm C)) mod order C) /\
  (concat tags = [] ->
     hash_to_curve G H msgs tags = Err IInput /\ hash_to_scalar G H msgs tags = Err IInput).
Proof.
  intros C CL H HL Hokm fuel G L expand point msgs tags. split; intros Ht.
  - split.
    + exact (ec_hash_to_curve_ok HL Hokm msgs tags Ht).
    + eexists. split; [exact (ec_hash_to_scalar_ok HL Hokm msgs tags Ht)|reflexivity].
  - exact (ec_hash_empty_tag msgs tags Ht).
Qed.

(** ** C39: private keys *)
(** A constructor from bytes accepts exactly the [valid] strings; the private
    key of the server is then the number [value] of the string. *)
Definition accepts_exactly {S} (new : bytes -> res S) (secret : S -> Z)
  (valid : bytes -> Prop) (value : bytes -> Z) : Prop :=
  forall key,
  (valid key -> exists server, new key = Ok server /\ secret server = value key) /\
  (~ valid key -> new key = Err EDeserialization).

Theorem C39_ristretto255 :
  forall (D : Dalek), DalekLaws D -> forall (H : HashFn) fuel,
  let CS := RistrettoSuite D fuel H in
  let valid key := length key = 32%nat /\ 0 < le_Z key < ell in
  accepts_exactly (oprf_server_new_with_key CS) (fun s => fval (oprf_sk s)) valid le_Z /\
  accepts_exactly (voprf_server_new_with_key CS) (fun s => fval (voprf_sk s)) valid le_Z /\
  accepts_exactly (poprf_server_new_with_key CS) (fun s => fval (poprf_sk s)) valid le_Z.
Proof.
  intros D DL H fuel CS valid.
  destruct (C38_ristretto_encodings D DL fuel) as (_ & _ & _ & _ & _ & Hok & Hbad & _).
  assert (Hgood : forall key, valid key -> exists s : RScalar,
            deserialize_scalar (CSGroup CS) key = Ok s /\ fval s = le_Z key).
  { intros key [H1 H2]. assert (Hf : fval (of_Z ell (le_Z key)) = le_Z key).
    { cbn. apply Z.mod_small. split; [apply Z.lt_le_incl|]; apply H2. }
    exists (of_Z ell (le_Z key)). split; [|exact Hf]. apply Hok. auto. }
  split; [|split]; intros key; (split; [intros Hv|intros Hv; specialize (Hbad key Hv)]).
  all: try (unfold oprf_server_new_with_key, voprf_server_new_with_key, poprf_server_new_with_key;
            cbn [CS CSGroup RistrettoSuite]; rewrite Hbad; reflexivity).
  all: destruct (Hgood key Hv) as (s & E & Es);
       unfold oprf_server_new_with_key, voprf_server_new_with_key, poprf_server_new_with_key;
       rewrite E; cbn [bind]; eexists; split; [reflexivity|exact Es].
Qed.

Theorem C39_elliptic_curve :
  forall (C : Curve), CurveLaws C -> forall (H : HashFn) fuel id,
  let CS := CurveSuite C fuel id H in
  let w := field_bytes C in
  let valid key := (length key = w \/ (24 <= length key < w)%nat) /\ 0 < be_Z key < order C in
  accepts_exactly (oprf_server_new_with_key CS) (fun s => fval (oprf_sk s)) valid be_Z /\
  accepts_exactly (voprf_server_new_with_key CS) (fun s => fval (voprf_sk s)) valid be_Z /\
  accepts_exactly (poprf_server_new_with_key CS) (fun s => fval (poprf_sk s)) valid be_Z.
Proof.
  intros C CL H fuel id CS w valid.
  destruct (C38_curve_encodings C CL fuel) as (_ & _ & _ & _ & _ & _ & _ & _ & Hok & Hbad & _).
  assert (Hgood : forall key, valid key -> exists s : Fq (order C),
            deserialize_scalar (CSGroup CS) key = Ok s /\ fval s = be_Z key).
  { intros key [H1 H2]. assert (Hf : fval (of_Z (order C) (be_Z key)) = be_Z key).
    { cbn. apply Z.mod_small. split; [apply Z.lt_le_incl|]; apply H2. }
    exists (of_Z (order C) (be_Z key)). split; [|exact Hf]. apply Hok. auto. }
  split; [|split]; intros key; (split; [intros Hv|intros Hv; specialize (Hbad key Hv)]).
  all: try (unfold oprf_server_new_with_key, voprf_server_new_with_key, poprf_server_new_with_key;
            cbn [CS CSGroup CurveSuite]; rewrite Hbad; reflexivity).
  all: destruct (Hgood key Hv) as (s & E & Es);
       unfold oprf_server_new_with_key, voprf_server_new_with_key, poprf_server_new_with_key;
       rewrite E; cbn [bind]; eexists; split; [reflexivity|exact Es].
Qed.

(** ** C37 for the two implementations *)
Theorem C37_ristretto255 :
  forall (D : Dalek) (DL : DalekLaws D) (H : HashFn) (HL : HashLaws H) fuel,
  let CS := RistrettoSuite D fuel H in
  let zero := zero_scalar (CSGroup CS) in
  let pad := lv (repeat x00 32) ++ str "Finalize" in
  forall input, (len input <= 65535)%N ->
  (forall reply,
     oprf_client_finalize CS (mkOprfClient zero) input reply
     = Ok (digest H (lv input ++ pad))) /\
  (forall blinded reply proof pk,
     VerifyProof (ristretto_suite_laws DL HL fuel) modeVOPRF (base_elem (CSGroup CS)) pk
                 [blinded] [evaluation_value reply] (c_scalar proof) (s_scalar proof) ->
     voprf_client_finalize CS (mkVoprfClient zero blinded) input reply proof pk
     = Ok (digest H (lv input ++ pad))) /\
  (forall blinded reply proof pk info,
     (len (info_or_default info) <= 65535)%N ->
     let tweaked := tweaked_element (ristretto_suite_laws DL HL fuel) pk (info_or_default info) in
     tweaked <> identity_elem (CSGroup CS) ->
     VerifyProof (ristretto_suite_laws DL HL fuel) modePOPRF (base_elem (CSGroup CS)) tweaked
                 [evaluation_value reply] [blinded] (c_scalar proof) (s_scalar proof) ->
     poprf_client_finalize CS (mkPoprfClient zero blinded) input reply proof pk info
     = Ok (digest H (lv input ++ lv (info_or_default info) ++ pad))).
Proof.
  intros D DL H HL fuel CS zero pad input Hi.
  assert (Hinv : invert_scalar (CSGroup CS) (zero_scalar (CSGroup CS)) = Ok (zero_scalar (CSGroup CS))).
  { cbn [invert_scalar zero_scalar CSGroup CS RistrettoSuite RistrettoGroup].
    rewrite (finv_zero ell ell_prime). reflexivity. }
  assert (Hid : serialize_elem (CSGroup CS) (identity_elem (CSGroup CS)) = repeat x00 32)
    by exact (compress_identity D DL).
  destruct (C37_zero_blind_forgets_key CS (ristretto_suite_laws DL HL fuel) Hinv input Hi) as (H1 & H2 & H3).
  rewrite Hid in H1, H2, H3. auto.
Qed.

Theorem C37_elliptic_curve :
  forall (C : Curve) (CL : CurveLaws C) (H : HashFn) (HL : HashLaws H)
         (Hokm : okm_fits (C := C) (H := H)) fuel id (Hid : (len id <= 65513)%N),
  let CS := CurveSuite C fuel id H in
  let L := curve_suite_laws CL HL Hokm fuel id Hid in
  let zero := zero_scalar (CSGroup CS) in
  (forall input reply, oprf_client_finalize CS (mkOprfClient zero) input reply = Panic) /\
  (forall input blinded reply proof pk,
     VerifyProof L modeVOPRF (base_elem (CSGroup CS)) pk [blinded] [evaluation_value reply]
                 (c_scalar proof) (s_scalar proof) <->
     voprf_client_finalize CS (mkVoprfClient zero blinded) input reply proof pk = Panic) /\
  (forall input blinded reply proof pk info,
     (len (info_or_default info) <= 65535)%N ->
     let tweaked := tweaked_element L pk (info_or_default info) in
     (tweaked <> identity_elem (CSGroup CS) /\
      VerifyProof L modePOPRF (base_elem (CSGroup CS)) tweaked [evaluation_value reply] [blinded]
                  (c_scalar proof) (s_scalar proof)) <->
     poprf_client_finalize CS (mkPoprfClient zero blinded) input reply proof pk info = Panic).
Proof.
  intros C CL H HL Hokm fuel id Hid CS L zero. apply (C37_zero_blind_panics CS L).
  cbn [invert_scalar zero_scalar CSGroup CS CurveSuite CurveGroup]. unfold ec_invert_scalar.
  now rewrite (proj2 (feqb_spec _ _) eq_refl).
Qed.

(** ** Non-vacuity: library records that satisfy the laws. *)

(** The additive group of order [ell] with 32-byte little-endian encodings. *)
Definition ToyDalek : Dalek := {|
  RPoint := Fq ell; rp_eq := feqb ell; rp_add := fadd ell; rp_mul := fmul ell;
  rp_base := f1 ell; rp_identity := f0 ell;
  compress := scalar_to_bytes; decompress := from_canonical_bytes;
  from_uniform_bytes := from_bytes_mod_order_wide
|}.

Section Toy.
Add Ring ell_ring : (fq_ring ell).
Add Ring n_ring : (fq_ring n_p256).

Lemma scalar_of_le (s : RScalar) : from_canonical_bytes (scalar_to_bytes s) = Some s.
Proof.
  unfold from_canonical_bytes. rewrite scalar_bytes_value. pose proof (ell_fval s) as Hs.
  rewrite (proj2 (Z.ltb_lt _ _)) by apply Hs. rewrite of_Z_fval. reflexivity.
Qed.

Lemma toy_dalek_laws : DalekLaws ToyDalek.
Proof.
  constructor; cbn [ToyDalek RPoint rp_eq rp_add rp_mul rp_base rp_identity compress decompress].
  - apply feqb_spec.
  - intros. ring.
  - intros. ring.
  - intros. ring.
  - intros. ring.
  - intros. ring.
  - intros. ring.
  - intros. ring.
  - intros. ring.
  - intros P. exists P. ring.
  - apply (F_1_neq_0 (fq_field ell ell_prime)).
  - intros P. apply le_bytes_length.
  - exact scalar_of_le.
  - intros b P Hl E. unfold from_canonical_bytes in E.
    destruct (Z.ltb_spec (le_Z b) ell) as [Hb|]; [|discriminate]. injection E as <-.
    assert (Hr : forall x y : bytes, length x = length y -> le_Z x = le_Z y -> x = y).
    { intros x y Hxy E. unfold le_Z in E. apply be_Z_inj in E; [|now rewrite !rev_length].
      apply (f_equal (@rev byte)) in E. now rewrite !rev_involutive in E. }
    apply Hr; [unfold scalar_to_bytes; now rewrite le_bytes_length|].
    rewrite scalar_bytes_value. cbn. apply Z.mod_small. split; [unfold le_Z; apply be_Z_range|exact Hb].
  - unfold scalar_to_bytes. rewrite fval_f0. vm_compute. reflexivity.
Qed.

(** The additive group of order [q], where [k] and [-k] share their x
    coordinate. *)
Definition toy_decompress (q : Z) (x : bytes) (odd : bool) : option (Fq q) :=
  if ((0 <? be_Z x) && (2 * be_Z x <? q))%bool
  then Some (of_Z q (if odd then q - be_Z x else be_Z x)) else None.
Definition toy_coords (q : Z) (P : Fq q) : option (bytes * bool) :=
  if fval P =? 0 then None
  else if 2 * fval P <? q then Some (I2OSP (Z.to_N (fval P)) 32, false)
  else Some (I2OSP (Z.to_N (q - fval P)) 32, true).
Definition ToyCurve : Curve := {|
  order := n_p256; field_bytes := 32; field_okm := 48; scalar_okm := 48;
  FieldElem := Z; field_from_okm := be_Z;
  EPoint := Fq n_p256; map_to_curve := of_Z n_p256; clear_cofactor := fun P => P;
  ep_eq := feqb n_p256; ep_add := fadd n_p256; ep_mul := fmul n_p256;
  ep_generator := f1 n_p256; ep_identity := f0 n_p256;
  ep_coords := toy_coords n_p256;
  ep_decompress := toy_decompress n_p256;
  ep_decompact := fun x => toy_decompress n_p256 x false;
  ep_from_xy := fun x y => toy_decompress n_p256 x (be_Z y mod 2 =? 1)
|}.

Lemma n_p256_32 : 1 < n_p256 <= 256 ^ Z.of_nat 32.
Proof. split; [apply Z.ltb_lt|apply Z.leb_le]; vm_compute; reflexivity. Qed.

Lemma toy_decompress_point q x odd P : 1 < q -> toy_decompress q x odd = Some P -> P <> f0 q.
Proof.
  intros Hn. unfold toy_decompress. destruct (Z.ltb_spec 0 (be_Z x)) as [H0|]; [|discriminate].
  destruct (Z.ltb_spec (2 * be_Z x) q) as [H1|]; [|discriminate]. cbn [andb].
  intros [= <-] E. apply (f_equal fval) in E. cbn [fval f0 of_Z] in E.
  rewrite Z.mod_0_l in E by lia. destruct odd; rewrite Z.mod_small in E; lia.
Qed.

Lemma toy_coords_point q P : prime q -> q <= 256 ^ Z.of_nat 32 -> q mod 2 = 1 -> P <> f0 q ->
  exists x odd, toy_coords q P = Some (x, odd) /\ length x = 32%nat /\ toy_decompress q x odd = Some P.
Proof.
  intros Hq Hn Hodd HP. pose proof (fval_range q Hq P) as Hr. pose proof (q_gt1 q Hq).
  assert (H0 : fval P <> 0).
  { intros E. apply HP, Fq_eq. rewrite E. cbn [fval f0 of_Z]. now rewrite Z.mod_0_l by lia. }
  unfold toy_coords. destruct (Z.eqb_spec (fval P) 0) as [|_]; [contradiction|].
  assert (Hs : forall k, 0 < k < q -> be_Z (I2OSP (Z.to_N k) 32) = k).
  { intros k Hk. apply be_Z_to_bytes. lia. }
  destruct (Z.ltb_spec (2 * fval P) q) as [Hh|Hh].
  - exists (I2OSP (Z.to_N (fval P)) 32), false. split; [reflexivity|].
    split; [apply I2OSP_length|]. unfold toy_decompress. rewrite Hs by lia.
    rewrite (proj2 (Z.ltb_lt 0 (fval P))), (proj2 (Z.ltb_lt _ q)) by lia. cbn [andb].
    now rewrite of_Z_fval.
  - assert (Hh2 : 2 * (q - fval P) < q).
    { assert (2 * fval P <> q); [|lia].
      intros E. rewrite <- E, Z.mul_comm, Z.mod_mul in Hodd by lia. discriminate. }
    exists (I2OSP (Z.to_N (q - fval P)) 32), true. split; [reflexivity|].
    split; [apply I2OSP_length|]. unfold toy_decompress. rewrite Hs by lia.
    rewrite (proj2 (Z.ltb_lt 0 (q - fval P))), (proj2 (Z.ltb_lt _ q)) by lia. cbn [andb].
    replace (q - (q - fval P)) with (fval P) by lia. now rewrite of_Z_fval.
Qed.

Lemma toy_curve_laws : CurveLaws ToyCurve.
Proof.
  constructor; cbn [ToyCurve order field_bytes EPoint ep_eq ep_add ep_mul ep_generator ep_identity
                    ep_coords ep_decompress ep_decompact ep_from_xy].
  - exact n_p256_prime.
  - exact (proj2 n_p256_32).
  - cbn. lia.
  - apply feqb_spec.
  - intros. ring.
  - intros. ring.
  - intros. ring.
  - intros. ring.
  - intros. ring.
  - intros. ring.
  - intros. ring.
  - intros. ring.
  - intros P. exists P. ring.
  - apply (F_1_neq_0 (fq_field n_p256 n_p256_prime)).
  - vm_compute. reflexivity.
  - intros P HP. refine (toy_coords_point n_p256 P n_p256_prime (proj2 n_p256_32) _ HP).
    vm_compute. reflexivity.
  - intros x odd P. apply toy_decompress_point, n_p256_32.
  - intros x P. apply toy_decompress_point, n_p256_32.
  - intros x y P. apply toy_decompress_point, n_p256_32.
Qed.
End Toy.

Lemma toy_hash_laws : HashLaws ZqHash.
Proof. constructor; [|vm_compute; discriminate|reflexivity]. intros m. unfold len, ZqHash. cbn [digest]. now rewrite I2OSP_length. Qed.

Lemma toy_okm_fits : okm_fits (C := ToyCurve) (H := ZqHash).
Proof. split; (split; [cbn; lia|vm_compute; discriminate]). Qed.

(** The lengths that are hashed to by the built-in suites (L = 48, 72 and 98
    bytes for P-256, P-384 and P-521) with hashes of 32, 48 and 64 bytes. *)
Example C42_lengths :
  forall H : HashFn,
  ((output_size H = 32 -> valid_len H 48 /\ valid_len H 96) /\
   (output_size H = 48 -> valid_len H 72 /\ valid_len H 144) /\
   (output_size H = 64 -> valid_len H 98 /\ valid_len H 196 /\ valid_len H 64))%N.
Proof.
  intros H. unfold valid_len, xmd_ell.
  split; [|split]; intros ->; repeat split; try lia; vm_compute; discriminate.
Qed.

(** A generator whose bytes are all equal in one draw, counting up. *)
Definition StepRng : Rng := {|
  rng_state := N; fill_bytes := fun st n => (repeat (byte_of_N st) n, (st + 1)%N)
|}.

Example C38_case :
  inhabited (SuiteLaws (RistrettoSuite ToyDalek 10 ZqHash)) /\
  inhabited (SuiteLaws (CurveSuite ToyCurve 10 (str "P256-SHA256") ZqHash)) /\
  (* three encodings of one element are read, one is written *)
  (let G := CurveGroup ToyCurve 10 in
   let x := I2OSP 7 32 in
   exists P, deserialize_elem G (x02 :: x) = Ok P /\ deserialize_elem G (x05 :: x) = Ok P /\
             deserialize_elem G (x04 :: x ++ repeat x00 32) = Ok P /\
             serialize_elem G P = x02 :: x) /\
  (* the zero draw is skipped *)
  (exists s, random_scalar (RistrettoGroup ToyDalek 10) StepRng 0%N = (Ok s, 2%N)) /\
  (exists s, random_scalar (CurveGroup ToyCurve 10) StepRng 255%N = (Ok s, 258%N)).
Proof.
  split. { exact (proj1 (C38_ristretto_laws ToyDalek toy_dalek_laws ZqHash toy_hash_laws 10)). }
  split.
  { refine (proj1 (C38_curve_laws ToyCurve toy_curve_laws ZqHash toy_hash_laws toy_okm_fits 10 _ _)).
    vm_compute. discriminate. }
  split.
  { exists (of_Z n_p256 7).
    split; [vm_compute; reflexivity|]. split; [vm_compute; reflexivity|].
    split; vm_compute; reflexivity. }
  split.
  - destruct (C38_ristretto_random ToyDalek 10 StepRng 0%N) as [H _].
    destruct (H 1%nat) as (s & E & _).
    + lia.
    + intros j Hj. assert (j = 0)%nat by lia. subst j. vm_compute. reflexivity.
    + vm_compute. discriminate.
    + exists s. exact E.
  - destruct (C38_curve_random ToyCurve toy_curve_laws 10 StepRng 255%N) as [H _].
    destruct (H 2%nat) as (s & E & _).
    + lia.
    + intros j Hj [H1 H2]. apply Z.ltb_lt in H1, H2.
      assert (Hc : (j = 0 \/ j = 1)%nat) by lia.
      destruct Hc; subst j; vm_compute in H1, H2; discriminate.
    + split; apply Z.ltb_lt; vm_compute; reflexivity.
    + exists s. exact E.
Qed.

(** A 24-byte key is accepted by the elliptic-curve implementation and
    refused by ristretto255; a 32-byte key is accepted by both. *)
Example C39_case :
  (exists s, voprf_server_new_with_key (CurveSuite ToyCurve 10 (str "P256-SHA256") ZqHash)
               (repeat x01 24) = Ok s) /\
  voprf_server_new_with_key (RistrettoSuite ToyDalek 10 ZqHash) (repeat x01 24) = Err EDeserialization /\
  (exists s, voprf_server_new_with_key (CurveSuite ToyCurve 10 (str "P256-SHA256") ZqHash)
               (repeat x01 32) = Ok s) /\
  (exists s, voprf_server_new_with_key (RistrettoSuite ToyDalek 10 ZqHash) (repeat x01 32) = Ok s).
Proof.
  destruct (C39_elliptic_curve ToyCurve toy_curve_laws ZqHash 10 (str "P256-SHA256")) as (_ & He & _).
  destruct (C39_ristretto255 ToyDalek toy_dalek_laws ZqHash 10) as (_ & Hr & _).
  split; [|split; [|split]].
  - destruct (proj1 (He (repeat x01 24))) as (s & E & _); [|exists s; exact E].
    split; [right; cbn; lia|]. split; apply Z.ltb_lt; vm_compute; reflexivity.
  - apply Hr. intros [H _]. discriminate.
  - destruct (proj1 (He (repeat x01 32))) as (s & E & _); [|exists s; exact E].
    split; [left; reflexivity|]. split; apply Z.ltb_lt; vm_compute; reflexivity.
  - destruct (proj1 (Hr (repeat x01 32))) as (s & E & _); [|exists s; exact E].
    split; [reflexivity|]. split; apply Z.ltb_lt; vm_compute; reflexivity.
Qed.

(** Different slicings of one message; a tag longer than 255 bytes. *)
Example C42_case :
  let G := CurveGroup ToyCurve 10 in
  let long_tag := repeat x61 300 in
  hash_to_curve G ZqHash [str "ab"; str "c"] [str "t"; long_tag]
    = hash_to_curve G ZqHash [str "abc"] [str "t" ++ long_tag] /\
  (exists P, hash_to_curve G ZqHash [str "abc"] [str "t" ++ long_tag] = Ok P) /\
  hash_to_scalar (RistrettoGroup ToyDalek 10) ZqHash [str "abc"] [[]; []] = Err IInput.
Proof.
  intros G long_tag.
  pose proof (C42_curve_hash ToyCurve toy_curve_laws ZqHash toy_hash_laws toy_okm_fits 10) as H.
  assert (H1 := proj1 (H [str "ab"; str "c"] [str "t"; long_tag])).
  assert (H2 := proj1 (H [str "abc"] [str "t" ++ long_tag])).
  destruct H1 as [H1 _]; [discriminate|]. destruct H2 as [H2 _]; [discriminate|].
  split; [|split].
  - etransitivity; [exact H1|]. symmetry. etransitivity; [exact H2|].
    replace (concat [str "t" ++ long_tag]) with (concat [str "t"; long_tag]) by reflexivity.
    reflexivity.
  - eexists. exact H2.
  - apply (C42_ristretto_hash ToyDalek toy_dalek_laws ZqHash toy_hash_laws 10). reflexivity.
Qed.

(** A client with a zero blinding factor, in both implementations. *)
Example C37_groups_case :
  (forall reply, exists out,
     oprf_client_finalize (RistrettoSuite ToyDalek 10 ZqHash)
       (mkOprfClient (CS := RistrettoSuite ToyDalek 10 ZqHash) (f0 ell)) (str "in") reply = Ok out) /\
  (forall reply,
     oprf_client_finalize (CurveSuite ToyCurve 10 (str "P256-SHA256") ZqHash)
       (mkOprfClient (CS := CurveSuite ToyCurve 10 (str "P256-SHA256") ZqHash) (f0 n_p256))
       (str "in") reply = Panic).
Proof.
  split.
  - assert (Hl : (len (str "in") <= 65535)%N) by (vm_compute; discriminate).
    destruct (C37_ristretto255 ToyDalek toy_dalek_laws ZqHash toy_hash_laws 10 (str "in") Hl) as [H _].
    intros reply. specialize (H reply). eexists. exact H.
  - assert (Hid : (len (str "P256-SHA256") <= 65513)%N) by (vm_compute; discriminate).
    destruct (C37_elliptic_curve ToyCurve toy_curve_laws ZqHash toy_hash_laws toy_okm_fits 10 _ Hid) as [H _].
    intros reply. exact (H _ reply).
Qed.
