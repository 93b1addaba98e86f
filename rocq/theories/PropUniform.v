(** * PropUniform: C45, the scalars drawn are uniform, and so are the messages.

    Probability by counting: the RNG reads a tape, and we count the tapes of a
    given length for which a call has a given result. *)
From Verif Require Import Oprf Voprf Poprf Spec OprfFacts VoprfFacts PoprfFacts.
From Verif Require Import Ristretto RistrettoFacts EllipticCurve EllipticCurveFacts Zq PropCorrectness PropPrivacy PropGroups.
From Coq Require Import Znumtheory Permutation.
Open Scope Z_scope.

(** All byte strings of a length. *)
Definition all_bytes : list byte := map (fun n => match Byte.of_N (N.of_nat n) with Some b => b | None => x00 end) (seq 0 256).
Fixpoint strings (n : nat) : list bytes :=
  match n with
  | O => [[]]
  | S n => flat_map (fun b => map (cons b) (strings n)) all_bytes
  end.

(** An RNG that reads a tape (and zeros when the tape is used up). *)
Definition TapeRng : Rng := {|
  rng_state := bytes;
  fill_bytes := fun t n => (firstn n t ++ repeat x00 (n - length t), skipn n t)
|}.

Definition count {A} (f : A -> bool) (l : list A) : nat := length (filter f l).

(** ** Counting *)
Lemma all_bytes_in b : In b all_bytes.
Proof. destruct b; vm_compute; tauto. Qed.

Lemma all_bytes_nodup : NoDup all_bytes.
Proof.
  apply NoDup_count_occ with (decA := Byte.byte_eq_dec). intros b. destruct b; vm_compute; lia.
Qed.

Lemma strings_in n : forall b, In b (strings n) <-> length b = n.
Proof.
  induction n as [|n IH]; intros b; cbn [strings].
  - split; [intros [<-|[]]; reflexivity|]. destruct b; [now left|discriminate].
  - rewrite in_flat_map. split.
    + intros (x & _ & H). apply in_map_iff in H as (y & <- & H). apply IH in H. cbn. lia.
    + destruct b as [|x b]; [discriminate|]. intros [= H]. exists x.
      split; [apply all_bytes_in|]. apply in_map. now apply IH.
Qed.

Lemma nodup_app {A} (a b : list A) : NoDup a -> NoDup b -> (forall x, In x a -> ~ In x b) -> NoDup (a ++ b).
Proof.
  induction a as [|x a IH]; intros Ha Hb Hd; [exact Hb|]. inversion Ha; subst. cbn. constructor.
  - rewrite in_app_iff. intros [H|H]; [contradiction|]. apply (Hd x); [now left|exact H].
  - apply IH; auto. intros y Hy. apply Hd. now right.
Qed.

Lemma strings_nodup n : NoDup (strings n).
Proof.
  induction n as [|n IH]; cbn [strings]; [constructor; [intros []|constructor]|].
  pose proof all_bytes_nodup as Hb. induction all_bytes as [|x l IHl]; cbn [flat_map]; [constructor|].
  inversion Hb; subst. apply nodup_app.
  - apply FinFun.Injective_map_NoDup; [|exact IH]. intros u v E. now injection E.
  - now apply IHl.
  - intros y Hy Hz. apply in_map_iff in Hy as (u & <- & _). apply in_flat_map in Hz as (z & Hz & Hu).
    apply in_map_iff in Hu as (v & E & _). injection E as -> _. contradiction.
Qed.

(** A self-inverse rearrangement of the tapes that turns one result into the
    other makes the counts equal. *)
Lemma count_le {A} (f g : A -> bool) (pi : A -> A) (l : list A) :
  NoDup l -> (forall x, In x l -> In (pi x) l) -> (forall x, In x l -> pi (pi x) = x) ->
  (forall x, In x l -> f x = true -> g (pi x) = true) -> (count f l <= count g l)%nat.
Proof.
  intros Hnd Hin Hinv Hfg. unfold count. rewrite <- (map_length pi (filter f l)).
  apply NoDup_incl_length.
  - assert (Hnd' : NoDup (filter f l)) by now apply NoDup_filter.
    assert (Hs : forall x, In x (filter f l) -> In x l) by (intros x H; now apply filter_In in H).
    induction (filter f l) as [|x r IH]; cbn; [constructor|]. inversion Hnd'; subst. constructor.
    + intros H. apply in_map_iff in H as (y & E & Hy). apply (f_equal pi) in E.
      rewrite !Hinv in E by (apply Hs; cbn; tauto). subst. contradiction.
    + apply IH; auto. intros y Hy. apply Hs. now right.
  - intros y Hy. apply in_map_iff in Hy as (x & <- & Hx). apply filter_In in Hx as [Hx Hf].
    apply filter_In. split; auto.
Qed.

Lemma count_eq {A} (f g : A -> bool) (pi : A -> A) (l : list A) :
  NoDup l -> (forall x, In x l -> In (pi x) l) -> (forall x, In x l -> pi (pi x) = x) ->
  (forall x, In x l -> g (pi x) = f x) -> count f l = count g l.
Proof.
  intros Hnd Hin Hinv Hfg. apply Nat.le_antisymm.
  - apply (count_le f g pi); auto. intros x Hx Hf. now rewrite Hfg.
  - apply (count_le g f pi); auto. intros x Hx Hg.
    rewrite <- Hfg by auto. now rewrite Hinv.
Qed.

Lemma count_ext {A} (f g : A -> bool) l : (forall x, In x l -> f x = g x) -> count f l = count g l.
Proof.
  intros H. unfold count. induction l as [|x l IH]; [reflexivity|]. cbn.
  rewrite (H x) by now left. specialize (IH (fun y Hy => H y (or_intror Hy))).
  destruct (g x); cbn; congruence.
Qed.

(** Does a call return this scalar / send this message? *)
Definition returns (G : Group) (s : Scalar G) (r : res (Scalar G)) : bool :=
  match r with Ok x => scalar_ct_eq G x s | _ => false end.

Definition sends (CS : CipherSuite) (mode : Mode) (input : bytes) (M : elem CS) (tape : bytes) : bool :=
  match mode with
  | Oprf => match fst (oprf_client_blind CS TapeRng input tape) with
            | Ok r => elem_ct_eq (CSGroup CS) (blinded_value (oprf_message r)) M | _ => false end
  | Voprf => match fst (voprf_client_blind CS TapeRng input tape) with
            | Ok r => elem_ct_eq (CSGroup CS) (blinded_value (voprf_message r)) M | _ => false end
  | Poprf => match fst (poprf_client_blind CS TapeRng input tape) with
            | Ok r => elem_ct_eq (CSGroup CS) (blinded_value (poprf_message r)) M | _ => false end
  end.

Lemma returns_true {G} (GL : GroupLaws G) s r : returns G s r = true <-> r = Ok s.
Proof.
  unfold returns. destruct r; try (split; [discriminate|congruence]).
  rewrite (scalar_ct_eq_spec _ GL). split; congruence.
Qed.

(** A message is sent exactly when one particular scalar is drawn. *)
Lemma sends_returns {CS} (L : SuiteLaws CS) mode input M :
  H2G L (mode_id mode) input <> identity_elem (CSGroup CS) -> M <> identity_elem (CSGroup CS) ->
  exists r, r <> zero_scalar (CSGroup CS) /\
  forall t, sends CS mode input M t
            = returns (CSGroup CS) r (fst (random_scalar (CSGroup CS) TapeRng t)).
Proof.
  intros HH HM. destruct (unique_blind L _ M HH HM) as [r [[Hr Hm] Hu]]. exists r. split; [exact Hr|].
  intros t. pose proof (random_nonzero _ (group_laws L) TapeRng t) as Hnz.
  assert (Heq : forall x, x <> zero_scalar (CSGroup CS) ->
    elem_ct_eq (CSGroup CS) (elem_mul (CSGroup CS) (H2G L (mode_id mode) input) x) M
    = scalar_ct_eq (CSGroup CS) x r).
  { intros x Hx. apply Bool.eq_iff_eq_true.
    rewrite (elem_ct_eq_spec _ (group_laws L)), (scalar_ct_eq_spec _ (group_laws L)).
    split; [intros E; symmetry; apply Hu; split; auto|now intros ->]. }
  unfold sends, returns. destruct mode.
  - rewrite (oprf_blind_ok L). destruct (random_scalar _ TapeRng t) as [[x|e| |] t']; try reflexivity.
    cbn in Hnz |- *. now apply Heq.
  - rewrite (voprf_blind_ok L). destruct (random_scalar _ TapeRng t) as [[x|e| |] t']; try reflexivity.
    cbn in Hnz |- *. now apply Heq.
  - rewrite (poprf_blind_ok L). destruct (random_scalar _ TapeRng t) as [[x|e| |] t']; try reflexivity.
    cbn in Hnz |- *. now apply Heq.
Qed.

(** ** Elliptic curves: exactly uniform *)
Section CurveUniform.
Context (C : Curve) (CL : CurveLaws C).
Local Notation w := (field_bytes C).
Local Notation n := (order C).
Context (s s' : Fq n) (Hs : s <> f0 n) (Hs' : s' <> f0 n).

Definition enc (a : Fq n) : bytes := I2OSP (Z.to_N (fval a)) w.

Lemma enc_len a : length (enc a) = w. Proof. apply I2OSP_length. Qed.
Lemma enc_val a : be_Z (enc a) = fval a.
Proof. unfold enc. apply be_Z_to_bytes. pose proof (n_fval CL a). pose proof (order_fits C CL). lia. Qed.

(** Exchange the two scalars, as numbers, as draws and on tapes. *)
Definition swap (a : Fq n) : Fq n := if feqb n a s then s' else if feqb n a s' then s else a.
Definition swap_draw (b : bytes) : bytes :=
  if be_Z b =? fval s then enc s' else if be_Z b =? fval s' then enc s else b.
Fixpoint swap_tape (k : nat) (t : bytes) : bytes :=
  match k with
  | O => t
  | S k => swap_draw (firstn w t) ++ swap_tape k (skipn w t)
  end.

Lemma swap_draw_len b : length b = w -> length (swap_draw b) = w.
Proof. intros H. unfold swap_draw. destruct (_ =? _); [apply enc_len|]. destruct (_ =? _); [apply enc_len|exact H]. Qed.

Lemma swap_draw_invol b : length b = w -> swap_draw (swap_draw b) = b.
Proof.
  intros H. unfold swap_draw.
  destruct (Z.eqb_spec (be_Z b) (fval s)) as [E1|E1].
  - rewrite enc_val.
    assert (Hb : enc s = b) by (apply be_Z_inj; [now rewrite enc_len|now rewrite enc_val]).
    destruct (Z.eqb_spec (fval s') (fval s)) as [E2|E2].
    + apply Fq_eq in E2. now rewrite E2.
    + now rewrite Z.eqb_refl.
  - destruct (Z.eqb_spec (be_Z b) (fval s')) as [E2|E2].
    + rewrite enc_val, Z.eqb_refl. apply be_Z_inj; [now rewrite enc_len|now rewrite enc_val].
    + destruct (Z.eqb_spec (be_Z b) (fval s)); [contradiction|].
      destruct (Z.eqb_spec (be_Z b) (fval s')); [contradiction|reflexivity].
Qed.

Lemma from_repr_swap b : length b = w -> from_repr C (swap_draw b) = option_map swap (from_repr C b).
Proof.
  intros H. unfold from_repr.
  pose proof (n_fval CL s) as Rs. pose proof (n_fval CL s') as Rs'.
  assert (Hval : forall z, 0 <= z < n -> fval (of_Z n z) = z) by (intros z Hz; cbn; now apply Z.mod_small).
  pose proof (be_Z_range b) as Rb.
  unfold swap_draw. destruct (Z.eqb_spec (be_Z b) (fval s)) as [E1|E1].
  - rewrite enc_val, E1. rewrite !(proj2 (Z.ltb_lt _ n)) by lia. cbn [option_map]. f_equal.
    rewrite !of_Z_fval. unfold swap. now rewrite (proj2 (feqb_spec s s) eq_refl).
  - destruct (Z.eqb_spec (be_Z b) (fval s')) as [E2|E2].
    + rewrite enc_val, E2. rewrite !(proj2 (Z.ltb_lt _ n)) by lia. cbn [option_map]. f_equal.
      rewrite !of_Z_fval. unfold swap. rewrite (proj2 (feqb_spec s' s') eq_refl).
      destruct (feqb n s' s) eqn:E; [|reflexivity]. now apply feqb_spec in E.
    + destruct (Z.ltb_spec (be_Z b) n) as [Hb|Hb]; [|reflexivity]. cbn [option_map]. f_equal.
      unfold swap. unfold feqb. rewrite Hval by lia.
      destruct (Z.eqb_spec (be_Z b) (fval s)); [contradiction|].
      destruct (Z.eqb_spec (be_Z b) (fval s')); [contradiction|reflexivity].
Qed.

Lemma swap_zero : swap (f0 n) = f0 n.
Proof.
  unfold swap. destruct (feqb n (f0 n) s) eqn:E; [apply feqb_spec in E; congruence|].
  destruct (feqb n (f0 n) s') eqn:E'; [apply feqb_spec in E'; congruence|reflexivity].
Qed.

Lemma swap_zero_iff a : feqb n (swap a) (f0 n) = feqb n a (f0 n).
Proof.
  unfold swap. destruct (feqb n a s) eqn:E.
  - apply feqb_spec in E. subst a.
    rewrite (proj2 (feqb_zero s') Hs'), (proj2 (feqb_zero s) Hs). reflexivity.
  - destruct (feqb n a s') eqn:E'; [|reflexivity]. apply feqb_spec in E'. subst a.
    rewrite (proj2 (feqb_zero s') Hs'), (proj2 (feqb_zero s) Hs). reflexivity.
Qed.

Lemma swap_tape_len k : forall t, length t = (k * w)%nat -> length (swap_tape k t) = (k * w)%nat.
Proof.
  induction k as [|k IH]; intros t H; [exact H|]. cbn [swap_tape]. rewrite app_length.
  rewrite swap_draw_len by (rewrite firstn_length; lia). rewrite IH by (rewrite skipn_length; lia). lia.
Qed.

Lemma swap_tape_cons k b t : length b = w -> swap_tape (S k) (b ++ t) = swap_draw b ++ swap_tape k t.
Proof.
  intros H. cbn [swap_tape]. rewrite firstn_app, skipn_app, H, Nat.sub_diag. cbn [firstn skipn].
  rewrite <- H, firstn_all, skipn_all, app_nil_r. reflexivity.
Qed.

Lemma tape_cases k (t : bytes) : length t = (S k * w)%nat ->
  exists b r, t = b ++ r /\ length b = w /\ length r = (k * w)%nat.
Proof.
  intros H. exists (firstn w t), (skipn w t). rewrite firstn_skipn, firstn_length, skipn_length.
  split; [reflexivity|]. cbn [Nat.mul] in H. split; lia.
Qed.

Lemma swap_tape_invol k : forall t, length t = (k * w)%nat -> swap_tape k (swap_tape k t) = t.
Proof.
  induction k as [|k IH]; intros t H; [reflexivity|].
  destruct (tape_cases k t H) as (b & r & -> & Hb & Hr).
  rewrite swap_tape_cons by auto. rewrite swap_tape_cons by now apply swap_draw_len.
  now rewrite swap_draw_invol, IH.
Qed.

Lemma fill_cons (b r : bytes) : length b = w -> fill_bytes TapeRng (b ++ r) w = (b, r).
Proof.
  intros H. cbn [fill_bytes TapeRng]. rewrite firstn_app, skipn_app, H, Nat.sub_diag. cbn [firstn skipn].
  replace (w - length (b ++ r))%nat with 0%nat by (rewrite app_length; lia).
  rewrite <- H, firstn_all, skipn_all, !app_nil_r. reflexivity.
Qed.

Lemma fill_nil : fill_bytes TapeRng [] w = (repeat x00 w, []).
Proof. cbn [fill_bytes TapeRng]. rewrite firstn_nil, skipn_nil. cbn [length app]. now rewrite Nat.sub_0_r. Qed.

Definition omap {A B} (f : A -> B) (r : res A) : res B :=
  match r with Ok a => Ok (f a) | Err e => Err e | Panic => Panic | Diverge => Diverge end.

Lemma zero_draw : from_repr C (repeat x00 w) = Some (f0 n).
Proof.
  unfold from_repr. rewrite <- (app_nil_r (repeat x00 w)), be_Z_zeros. change (be_Z []) with 0.
  pose proof (n_gt1 CL). rewrite (proj2 (Z.ltb_lt 0 n)) by lia. reflexivity.
Qed.

(** Sampling on the exchanged tape gives the exchanged result. *)
Lemma field_random_swap fuel : forall k t, length t = (k * w)%nat ->
  exists j, (j <= k)%nat /\
  length (snd (field_random C fuel TapeRng t)) = (j * w)%nat /\
  field_random C fuel TapeRng (swap_tape k t)
  = (omap swap (fst (field_random C fuel TapeRng t)),
     swap_tape j (snd (field_random C fuel TapeRng t))).
Proof.
  induction fuel as [|fuel IH]; intros k t Ht; [exists k; auto|]. cbn [field_random]. destruct k as [|k].
  - destruct t; [|discriminate]. cbn [swap_tape]. rewrite fill_nil, zero_draw. exists 0%nat.
    cbn [fst snd omap swap_tape]. now rewrite swap_zero.
  - destruct (tape_cases k t Ht) as (b & r & -> & Hb & Hr).
    rewrite swap_tape_cons by auto. rewrite !fill_cons; [|now apply swap_draw_len|exact Hb].
    rewrite from_repr_swap by auto. destruct (from_repr C b) as [a|]; cbn [option_map].
    + exists k. cbn [fst snd omap]. auto.
    + destruct (IH k r Hr) as (j & Hj & Hl & E). exists j. rewrite E. auto.
Qed.

Lemma random_swap fuel : forall k t, length t = (k * w)%nat ->
  fst (ec_random_scalar C fuel TapeRng (swap_tape k t))
  = omap swap (fst (ec_random_scalar C fuel TapeRng t)).
Proof.
  induction fuel as [|fuel IH]; intros k t Ht; [reflexivity|]. cbn [ec_random_scalar].
  destruct (field_random_swap (S fuel) k t Ht) as (j & Hj & Hl & E). rewrite E.
  destruct (field_random C (S fuel) TapeRng t) as [[a|e| |] t'] eqn:Ef; cbn [fst snd omap] in *; try reflexivity.
  rewrite swap_zero_iff. destruct (feqb n a (f0 n)); [|reflexivity]. now apply IH.
Qed.

Lemma returns_swap r : returns (CurveGroup C 0) s' (omap swap r) = returns (CurveGroup C 0) s r.
Proof.
  destruct r as [a|e| |]; try reflexivity. cbn [omap returns scalar_ct_eq CurveGroup].
  apply Bool.eq_iff_eq_true. unfold swap. destruct (feqb n a s) eqn:E1.
  - rewrite feqb_spec. tauto.
  - destruct (feqb n a s') eqn:E2.
    + apply feqb_spec in E2. subst a. split; [|discriminate]. intros H. apply feqb_spec in H.
      subst. rewrite (proj2 (feqb_spec s' s') eq_refl) in E1. discriminate.
    + rewrite E2. tauto.
Qed.

Lemma curve_uniform fuel k :
  count (fun t => returns (CurveGroup C fuel) s (fst (random_scalar (CurveGroup C fuel) TapeRng t))) (strings (k * w))
  = count (fun t => returns (CurveGroup C fuel) s' (fst (random_scalar (CurveGroup C fuel) TapeRng t))) (strings (k * w)).
Proof.
  apply (count_eq _ _ (swap_tape k)).
  - apply strings_nodup.
  - intros t Ht. apply strings_in in Ht. apply strings_in. now apply swap_tape_len.
  - intros t Ht. apply strings_in in Ht. now apply swap_tape_invol.
  - intros t Ht. apply strings_in in Ht. cbn [random_scalar CurveGroup].
    rewrite random_swap by auto. apply returns_swap.
Qed.
End CurveUniform.

(** Every non-zero scalar is returned for the same number of tapes, and (with
    one draw) for exactly one tape. *)
Theorem C45_curve_scalars :
  forall (C : Curve), CurveLaws C -> forall fuel,
  let G := CurveGroup C fuel in
  let tapes k := strings (k * field_bytes C) in
  let drawn s t := returns G s (fst (random_scalar G TapeRng t)) in
  (forall k s s', s <> zero_scalar G -> s' <> zero_scalar G ->
     count (drawn s) (tapes k) = count (drawn s') (tapes k)) /\
  (forall s, s <> zero_scalar G -> (0 < fuel)%nat -> count (drawn s) (tapes 1%nat) = 1%nat) /\
  (forall k, count (drawn (zero_scalar G)) (tapes k) = 0%nat).
Proof.
  intros C CL fuel G tapes drawn. split; [|split].
  - intros k s s' Hs Hs'. exact (curve_uniform C CL s s' Hs Hs' fuel k).
  - intros s Hs Hf. destruct fuel as [|fuel]; [lia|].
    assert (Hd : forall t, length t = field_bytes C -> drawn s t = true <-> t = enc C s).
    { intros t Ht. unfold drawn, G. rewrite (returns_true (curve_group_laws CL (S fuel))).
      cbn [random_scalar CurveGroup].
      pose proof (fval_pos CL s) as Hp. destruct Hp as [Hp _]. specialize (Hp Hs).
      pose proof (n_fval CL s) as Rs.
      assert (Hgood : forall b a, length b = field_bytes C -> from_repr C b = Some a -> a <> f0 (order C) ->
        fst (ec_random_scalar C (S fuel) TapeRng b) = Ok a).
      { intros b a Hb E Ha. cbn [ec_random_scalar field_random].
        rewrite <- (app_nil_r b) at 1. rewrite (fill_cons C b [] Hb), E.
        now rewrite (proj2 (feqb_zero a) Ha). }
      split.
      - intros E. destruct (from_repr C t) as [a|] eqn:Er.
        + destruct (feqb (order C) a (f0 (order C))) eqn:Ea.
          * exfalso. (* a zero draw, then only zeros *)
            assert (Hz : forall fl t', (t' = [] \/ t' = t) ->
              forall x y, field_random C fl TapeRng t' = (Ok x, y) -> x = f0 (order C) /\ y = []).
            { intros fl t' Ht' x y Ex. destruct fl as [|fl]; [discriminate|]. cbn [field_random] in Ex.
              destruct Ht' as [->| ->].
              - rewrite (fill_nil C), (zero_draw C CL) in Ex. now injection Ex as <- <-.
              - rewrite <- (app_nil_r t) in Ex. rewrite (fill_cons C t [] Ht) in Ex.
                rewrite Er in Ex. injection Ex as <- <-. apply feqb_spec in Ea. auto. }
            assert (Hall : forall fl t', (t' = [] \/ t' = t) -> forall x,
              fst (ec_random_scalar C fl TapeRng t') <> Ok x).
            { induction fl as [|fl IH]; intros t' Ht' x; [discriminate|]. cbn [ec_random_scalar].
              destruct (field_random C (S fl) TapeRng t') as [[x'|e| |] y] eqn:Ex; try discriminate.
              destruct (Hz _ _ Ht' _ _ Ex) as [-> ->].
              rewrite (proj2 (feqb_spec (f0 (order C)) (f0 (order C))) eq_refl). apply IH. now left. }
            exact (Hall _ t (or_intror eq_refl) s E).
          * assert (E' : fst (ec_random_scalar C (S fuel) TapeRng t) = Ok a) by (apply Hgood; auto; now apply feqb_zero).
            assert (E2 : Ok (E := Error) a = Ok s) by (rewrite <- E'; exact E). injection E2 as ->. clear E E'.
            unfold from_repr in Er. destruct (Z.ltb_spec (be_Z t) (order C)) as [Hlt|]; [|discriminate].
            injection Er as Er. apply (f_equal fval) in Er. cbn [of_Z fval] in Er.
            pose proof (be_Z_range t). rewrite Z.mod_small in Er by lia.
            apply be_Z_inj; [now rewrite enc_len|]. now rewrite (enc_val C CL).
        + exfalso.
          assert (Hz : forall fl t', (t' = [] \/ t' = t) ->
              forall x y, field_random C fl TapeRng t' = (Ok x, y) -> x = f0 (order C) /\ y = []).
          { induction fl as [|fl IH]; intros t' Ht' x y Ex; [discriminate|]. cbn [field_random] in Ex.
            destruct Ht' as [->| ->].
            - rewrite (fill_nil C), (zero_draw C CL) in Ex. now injection Ex as <- <-.
            - rewrite <- (app_nil_r t) in Ex. rewrite (fill_cons C t [] Ht) in Ex.
              rewrite Er in Ex. apply (IH [] (or_introl eq_refl)) in Ex. exact Ex. }
          assert (Hall : forall fl t', (t' = [] \/ t' = t) -> forall x,
            fst (ec_random_scalar C fl TapeRng t') <> Ok x).
          { induction fl as [|fl IH]; intros t' Ht' x; [discriminate|]. cbn [ec_random_scalar].
            destruct (field_random C (S fl) TapeRng t') as [[x'|e| |] y] eqn:Ex; try discriminate.
            destruct (Hz _ _ Ht' _ _ Ex) as [-> ->].
            rewrite (proj2 (feqb_spec (f0 (order C)) (f0 (order C))) eq_refl). apply IH. now left. }
          exact (Hall _ t (or_intror eq_refl) s E).
      - intros ->. apply (Hgood (enc C s) s).
        + apply enc_len.
        + unfold from_repr. rewrite (enc_val C CL), (proj2 (Z.ltb_lt _ _)) by lia. now rewrite of_Z_fval.
        + exact Hs. }
    unfold count, tapes. rewrite Nat.mul_1_l.
    pose proof (NoDup_filter (drawn s) (strings_nodup (field_bytes C))) as Hnd.
    assert (Hin : forall t, In t (filter (drawn s) (strings (field_bytes C))) <-> t = enc C s).
    { intros t. rewrite filter_In, strings_in. split.
      - intros [H1 H2]. now apply Hd in H2.
      - intros ->. split; [apply enc_len|]. apply Hd; [apply enc_len|reflexivity]. }
    destruct (filter (drawn s) (strings (field_bytes C))) as [|x [|y l]] eqn:E.
    + exfalso. apply (proj2 (Hin _) eq_refl).
    + reflexivity.
    + exfalso. inversion Hnd as [|? ? Hx _]; subst. apply Hx.
      pose proof (proj1 (Hin x) (or_introl eq_refl)) as E1.
      pose proof (proj1 (Hin y) (or_intror (or_introl eq_refl))) as E2. rewrite E1, <- E2. now left.
  - intros k. unfold count.
    destruct (filter (drawn (zero_scalar G)) (tapes k)) as [|t l] eqn:E; [reflexivity|]. exfalso.
    assert (Hin : In t (filter (drawn (zero_scalar G)) (tapes k))) by (rewrite E; now left).
    apply filter_In in Hin as [_ Hin]. unfold drawn in Hin.
    apply (returns_true (curve_group_laws CL fuel)) in Hin.
    pose proof (random_nonzero _ (curve_group_laws CL fuel) TapeRng t) as Hnz. fold G in Hnz.
    rewrite Hin in Hnz. now apply Hnz.
Qed.

(** Hence the messages: for any two inputs, and any two elements, the number
    of tapes on which [blind] sends the one for the first input is the number
    of tapes on which it sends the other for the second. *)
Theorem C45_curve_messages :
  forall (C : Curve), CurveLaws C -> forall (H : HashFn) fuel id,
  let CS := CurveSuite C fuel id H in
  forall (L : SuiteLaws CS) (mode : Mode) (k : nat) (input input' : bytes) (M M' : elem CS),
  H2G L (mode_id mode) input <> identity_elem (CSGroup CS) ->
  H2G L (mode_id mode) input' <> identity_elem (CSGroup CS) ->
  M <> identity_elem (CSGroup CS) -> M' <> identity_elem (CSGroup CS) ->
  let tapes := strings (k * field_bytes C) in
  count (sends CS mode input M) tapes = count (sends CS mode input' M') tapes /\
  ((0 < fuel)%nat -> k = 1%nat -> count (sends CS mode input M) tapes = 1%nat).
Proof.
  intros C CL H fuel id CS L mode k input input' M M' HH HH' HM HM' tapes.
  destruct (sends_returns L mode input M HH HM) as (r & Hr & Er).
  destruct (sends_returns L mode input' M' HH' HM') as (r' & Hr' & Er').
  destruct (C45_curve_scalars C CL fuel) as (H1 & H2 & _).
  rewrite (count_ext _ _ tapes (fun t _ => Er t)), (count_ext _ _ tapes (fun t _ => Er' t)).
  split; [exact (H1 k r r' Hr Hr')|]. intros Hf ->. exact (H2 r Hr Hf).
Qed.

(** ** ristretto255: uniform up to one part in 2^259 *)

Lemma div_step (q v M : Z) : 0 <= v < q ->
  (M + 1 + q - 1 - v) / q = (M + q - 1 - v) / q + (if M mod q =? v then 1 else 0).
Proof.
  intros Hv. pose proof (Z.div_mod M q ltac:(lia)) as E. pose proof (Z.mod_pos_bound M q ltac:(lia)) as Hr.
  set (a := M / q) in *. set (r := M mod q) in *.
  replace (M + 1 + q - 1 - v) with ((r + q - v) + a * q) by lia.
  replace (M + q - 1 - v) with ((r + q - 1 - v) + a * q) by lia.
  rewrite !Z.div_add by lia. destruct (Z.eqb_spec r v) as [->|Hne].
  - replace (v + q - v) with (1 * q) by lia. rewrite Z.div_mul by lia.
    rewrite (Z.div_small (v + q - 1 - v)) by lia. lia.
  - destruct (Z_lt_le_dec r v).
    + rewrite !Z.div_small by lia. lia.
    + replace (r + q - v) with ((r - v) + 1 * q) by lia.
      replace (r + q - 1 - v) with ((r - v - 1) + 1 * q) by lia.
      rewrite !Z.div_add by lia. rewrite !Z.div_small by lia. lia.
Qed.

Lemma count_mod (q v : Z) : 0 <= v < q -> forall N,
  Z.of_nat (count (fun x => x mod q =? v) (map Z.of_nat (seq 0 N))) = (Z.of_nat N + q - 1 - v) / q.
Proof.
  intros Hv N. induction N as [|N IH].
  - cbn. symmetry. apply Z.div_small. lia.
  - rewrite seq_S, map_app. unfold count in *. rewrite filter_app, app_length, Nat2Z.inj_add, IH.
    rewrite Nat2Z.inj_succ. unfold Z.succ. rewrite (div_step q v _ Hv). f_equal.
    cbn [map filter Nat.add]. destruct (_ =? _); reflexivity.
Qed.

Lemma count_map {A B} (g : A -> B) (f : B -> bool) l : count (fun x => f (g x)) l = count f (map g l).
Proof. unfold count. induction l as [|x l IH]; [reflexivity|]. cbn. destruct (f (g x)); cbn; congruence. Qed.

Lemma count_perm {A} (f : A -> bool) l l' : Permutation l l' -> count f l = count f l'.
Proof.
  unfold count. induction 1; cbn; auto.
  - destruct (f x); cbn; congruence.
  - destruct (f x), (f y); reflexivity.
  - congruence.
Qed.

Lemma le_Z_range b : 0 <= le_Z b < 256 ^ Z.of_nat (length b).
Proof. unfold le_Z. rewrite <- rev_length. apply be_Z_range. Qed.

Lemma le_Z_inj a b : length a = length b -> le_Z a = le_Z b -> a = b.
Proof.
  intros Hl E. unfold le_Z in E. apply be_Z_inj in E; [|now rewrite !rev_length].
  apply (f_equal (@rev byte)) in E. now rewrite !rev_involutive in E.
Qed.

Lemma strings_numbers n :
  Permutation (map le_Z (strings n)) (map Z.of_nat (seq 0 (Z.to_nat (256 ^ Z.of_nat n)))).
Proof.
  apply NoDup_Permutation.
  - pose proof (strings_nodup n) as Hnd. assert (Hl : forall b, In b (strings n) -> length b = n) by (intros; now apply strings_in).
    induction (strings n) as [|x l IH]; cbn; [constructor|]. inversion Hnd; subst. constructor.
    + intros H. apply in_map_iff in H as (y & E & Hy). apply le_Z_inj in E; [subst; contradiction|].
      rewrite !Hl; [reflexivity|now left|now right].
    + apply IH; auto. intros b Hb. apply Hl. now right.
  - apply FinFun.Injective_map_NoDup; [intros a b; apply Nat2Z.inj|apply seq_NoDup].
  - intros z. rewrite !in_map_iff. split.
    + intros (b & <- & Hb). apply strings_in in Hb. pose proof (le_Z_range b) as Hr. rewrite Hb in Hr.
      exists (Z.to_nat (le_Z b)). rewrite in_seq. lia.
    + intros (x & <- & Hx). apply in_seq in Hx. exists (rev (I2OSP (Z.to_N (Z.of_nat x)) n)).
      assert (H0 : 0 <= 256 ^ Z.of_nat n) by (apply Z.pow_nonneg; lia).
      split; [|apply strings_in; now rewrite rev_length, I2OSP_length].
      unfold le_Z. rewrite rev_involutive. apply be_Z_to_bytes. lia.
Qed.

Lemma strings_mod q v n : 0 <= v < q ->
  Z.of_nat (count (fun b => le_Z b mod q =? v) (strings n)) = (256 ^ Z.of_nat n + q - 1 - v) / q.
Proof.
  intros Hv. rewrite (count_map le_Z (fun x => x mod q =? v)), (count_perm _ _ _ (strings_numbers n)).
  rewrite count_mod by exact Hv. f_equal.
  assert (H0 : 0 <= 256 ^ Z.of_nat n) by (apply Z.pow_nonneg; lia). lia.
Qed.

Lemma near_uniform q v N : 0 <= v < q -> N / q <= (N + q - 1 - v) / q <= N / q + 1.
Proof.
  intros Hv. split.
  - apply Z.div_le_mono; lia.
  - replace (N / q + 1) with ((N + 1 * q) / q) by (now rewrite Z.div_add by lia).
    apply Z.div_le_mono; lia.
Qed.

(** On one 64-byte draw, a non-zero scalar is returned for each string whose
    value reduces to it. *)
Lemma ristretto_drawn (D : Dalek) (fuel : nat) (s : RScalar) t : s <> f0 ell -> length t = 64%nat ->
  returns (RistrettoGroup D (S fuel)) s (fst (random_scalar (RistrettoGroup D (S fuel)) TapeRng t))
  = (le_Z t mod ell =? fval s).
Proof.
  intros Hs Ht. cbn [random_scalar RistrettoGroup].
  assert (Hfill : fill_bytes TapeRng t 64 = (t, [])).
  { cbn [fill_bytes TapeRng]. rewrite Ht, Nat.sub_diag, <- Ht, firstn_all, skipn_all. cbn [repeat]. now rewrite app_nil_r. }
  assert (Hnil : forall f, fst (ristretto_random_scalar f TapeRng []) = Diverge).
  { induction f as [|f IH]; [reflexivity|]. cbn [ristretto_random_scalar]. unfold dalek_scalar_random.
    cbn [fill_bytes TapeRng firstn skipn length Nat.sub app].
    assert (E : from_bytes_mod_order_wide (repeat x00 64) = f0 ell).
    { apply Fq_eq. vm_compute. reflexivity. }
    rewrite E, (proj2 (feqb_spec (f0 ell) (f0 ell)) eq_refl). exact IH. }
  cbn [ristretto_random_scalar]. unfold dalek_scalar_random. rewrite Hfill.
  set (x := from_bytes_mod_order_wide t).
  assert (Hx : fval x = le_Z t mod ell) by reflexivity.
  destruct (feqb ell x (f0 ell)) eqn:E.
  - cbn [negb]. unfold returns. rewrite Hnil. apply feqb_spec in E. symmetry. apply Z.eqb_neq.
    intros E'. apply Hs. rewrite <- E. symmetry. apply Fq_eq. now rewrite Hx.
  - cbn [negb fst returns scalar_ct_eq RistrettoGroup]. unfold feqb. now rewrite Hx.
Qed.

(** The number of 64-byte draws that give a scalar, or a message: the integer
    part of [2^512 / ell], or one more. *)
Theorem C45_ristretto_scalars :
  forall (D : Dalek) fuel, let G := RistrettoGroup D (S fuel) in
  forall s, s <> zero_scalar G ->
  2 ^ 512 / ell <=
  Z.of_nat (count (fun t => returns G s (fst (random_scalar G TapeRng t))) (strings 64))
  <= 2 ^ 512 / ell + 1.
Proof.
  intros D fuel G s Hs.
  assert (E : Z.of_nat (count (fun t => returns G s (fst (random_scalar G TapeRng t))) (strings 64))
              = (256 ^ Z.of_nat 64 + ell - 1 - fval s) / ell).
  { rewrite (count_ext _ (fun b => le_Z b mod ell =? fval s)).
    - exact (strings_mod ell (fval s) 64 (ell_fval s)).
    - intros t Ht. apply strings_in in Ht. exact (ristretto_drawn D fuel s t Hs Ht). }
  rewrite E. exact (near_uniform ell (fval s) (256 ^ Z.of_nat 64) (ell_fval s)).
Qed.

Theorem C45_ristretto_messages :
  forall (D : Dalek) (H : HashFn) fuel, let CS := RistrettoSuite D (S fuel) H in
  forall (L : SuiteLaws CS) (mode : Mode) (input : bytes) (M : elem CS),
  H2G L (mode_id mode) input <> identity_elem (CSGroup CS) -> M <> identity_elem (CSGroup CS) ->
  2 ^ 512 / ell <= Z.of_nat (count (sends CS mode input M) (strings 64)) <= 2 ^ 512 / ell + 1.
Proof.
  intros D H fuel CS L mode input M HH HM.
  destruct (sends_returns L mode input M HH HM) as (r & Hr & Er).
  rewrite (count_ext _ _ (strings 64) (fun t _ => Er t)).
  exact (C45_ristretto_scalars D fuel r Hr).
Qed.

(** The bias is below one part in 2^259. *)
Example C45_bias : 2 ^ 259 < 2 ^ 512 / ell.
Proof. apply Z.ltb_lt. vm_compute. reflexivity. Qed.

(** The hypotheses of the message theorems hold for concrete inputs, with any
    laws. *)
Example C45_case :
  (forall L : SuiteLaws (CurveSuite ToyCurve 10 (str "P256-SHA256") ZqHash),
     H2G L (mode_id Oprf) (str "some input")
       <> identity_elem (CSGroup (CurveSuite ToyCurve 10 (str "P256-SHA256") ZqHash))) /\
  (forall L : SuiteLaws (RistrettoSuite ToyDalek 10 ZqHash),
     H2G L (mode_id Oprf) (str "some input") <> identity_elem (CSGroup (RistrettoSuite ToyDalek 10 ZqHash))) /\
  (* a tape on which the second draw decides *)
  fst (random_scalar (CurveGroup ToyCurve 10) TapeRng (repeat xff 32 ++ repeat x11 32))
  = Ok (of_Z n_p256 (be_Z (repeat x11 32))).
Proof.
  assert (Hgen : forall CS (L : SuiteLaws CS) input,
    match hash_to_group CS input Oprf with
    | Ok P => negb (elem_ct_eq (CSGroup CS) P (identity_elem (CSGroup CS))) | _ => false end = true ->
    H2G L (mode_id Oprf) input <> identity_elem (CSGroup CS)).
  { intros CS L input E Hid. rewrite (hash_to_group_ok L), Hid in E.
    rewrite (proj2 (elem_ct_eq_spec _ (group_laws L) _ _) eq_refl) in E. discriminate. }
  split; [|split].
  - intros L. apply Hgen. vm_compute. reflexivity.
  - intros L. apply Hgen. vm_compute. reflexivity.
  - vm_compute. reflexivity.
Qed.
