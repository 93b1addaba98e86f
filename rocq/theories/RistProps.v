(** * RistProps: what the elements of ristretto255 are, for parameters
    satisfying [RLaws]; used by [PropRist]. *)
From Verif Require Import Rist255 RistFacts RistSpec RistrettoFacts Pocklington Weierstrass.
From Coq Require Import Znumtheory.
Open Scope Z_scope.

Section Props.
Context (R : RParams) (RL : RLaws R).
Local Notation p := (rp R).
Local Notation F := (Fq (rp R)).
Local Notation d := (cD R).
Local Notation i := (cI R).
Local Notation Hp := (rp_prime R RL).

Definition DalekOf : Dalek := RDalek R (rp_prime R RL) (id_rep R RL).
Lemma dalek_of_laws : DalekLaws DalekOf.
Proof. exact (rdalek_laws R RL). Qed.

(** Coordinates of the point that decoding gives. *)
Definition ptx (e : RPoint DalekOf) : F := ex _ _ (rpt R (rp_prime R RL) e).
Definition pty (e : RPoint DalekOf) : F := ey _ _ (rpt R (rp_prime R RL) e).
Local Notation sof := (sof R RL).

Lemma elem_decodes e : rfc_decodes p d (sof e) (ptx e) (pty e).
Proof. apply (decodes_dec R RL). destruct (sof_dec R RL e) as [D S]. split; [exact S|exact D]. Qed.

Lemma xy_inj e e' : ptx e = ptx e' -> pty e = pty e' -> e = e'.
Proof. intros Ex Ey. apply RP_eq, EPoint_eq; assumption. Qed.

Lemma decodes_elem s x y : rfc_decodes p d s x y -> exists! e, ptx e = x /\ pty e = y.
Proof.
  intros H. apply (decodes_dec R RL) in H as [S D]. pose proof (dec_on R RL _ _ _ D) as Ho.
  set (Q := epoint p d Hp x y). assert (EQ : Q = mkE _ _ x y Ho) by apply epoint_on.
  assert (HX : ex _ _ Q = x) by now rewrite EQ. assert (HY : ey _ _ Q = y) by now rewrite EQ.
  assert (Hq : rpt R Hp (mk_rp R Hp (rid R Hp (id_rep R RL)) Q) = Q).
  { apply (mk_rp_pt R RL); unfold even; rewrite ?HX, HY; [exact (dec_even R RL _ _ _ D)|exact (dec_canon R RL _ _ _ D)]. }
  exists (mk_rp R Hp (rid R Hp (id_rep R RL)) Q). split.
  - unfold ptx, pty. rewrite Hq. split; assumption.
  - intros e [Ex Ey]. apply xy_inj; unfold ptx, pty in *; rewrite Hq, ?Ex, ?Ey; [exact HX|exact HY].
Qed.

Lemma decodes_unique s s' x y : rfc_decodes p d s x y -> rfc_decodes p d s' x y -> s = s'.
Proof.
  intros H H'. apply (decodes_dec R RL) in H as [S D]. apply (decodes_dec R RL) in H' as [S' D'].
  exact (dec_s_unique R RL _ _ _ _ S S' D D').
Qed.

Lemma compress_value e : le_Z (compress DalekOf e) = fval (sof e).
Proof. exact (le_Z_sof R RL e). Qed.
Lemma compress_length e : length (compress DalekOf e) = 32%nat.
Proof. exact (compress_len _ dalek_of_laws e). Qed.

Lemma identity_xy : ptx (rp_identity DalekOf) = f0 p /\ pty (rp_identity DalekOf) = f1 p.
Proof. split; reflexivity. Qed.

Lemma le_Z_inj a b : length a = length b -> le_Z a = le_Z b -> a = b.
Proof.
  intros Hl E. unfold le_Z in E. apply be_Z_inj in E; [|now rewrite !rev_length].
  rewrite <- (rev_involutive a), E. apply rev_involutive.
Qed.

Lemma read_iff b e : ristretto_deserialize_elem DalekOf b = Ok e <->
  length b = 32%nat /\ 0 < le_Z b < p /\ rfc_decodes p d (of_Z p (le_Z b)) (ptx e) (pty e).
Proof.
  rewrite (ristretto_elem_ok dalek_of_laws). split.
  - intros [-> Hne]. rewrite compress_length, compress_value, of_Z_fval.
    pose proof (fval_range p Hp (sof e)) as Hr. pose proof (sof_neq R RL e Hne) as Hs.
    split; [reflexivity|]. split; [|apply elem_decodes].
    assert (fval (sof e) <> 0); [|lia]. intros E. apply Hs. apply Fq_eq. rewrite E. cbn [f0 of_Z fval].
    rewrite Z.mod_0_l; [reflexivity|]. pose proof (p_big R RL). lia.
  - intros (Hl & Hr & H). pose proof (decodes_unique _ _ _ _ H (elem_decodes e)) as Es.
    assert (Hv : fval (sof e) = le_Z b). { rewrite <- Es. cbn [of_Z fval]. apply Z.mod_small. lia. }
    split.
    + apply le_Z_inj; [now rewrite compress_length|]. now rewrite compress_value.
    + intros E. assert (Z0 : sof e = f0 p) by (rewrite E; exact (sof_rid R RL)).
      rewrite Z0 in Hv. cbn [f0 of_Z fval] in Hv. rewrite Z.mod_0_l in Hv by (pose proof (p_big R RL); lia). lia.
Qed.

Lemma read_error b : (forall x y, ~ (length b = 32%nat /\ 0 < le_Z b < p /\ rfc_decodes p d (of_Z p (le_Z b)) x y)) ->
  ristretto_deserialize_elem DalekOf b = Err EDeserialization.
Proof.
  intros H. pose proof (ristretto_elem_safe dalek_of_laws b) as Hs.
  destruct (ristretto_deserialize_elem DalekOf b) as [e|e| |] eqn:E; try contradiction; [|now subst].
  apply read_iff in E. elim (H _ _ E).
Qed.

Lemma write_decodes e : length (compress DalekOf e) = 32%nat /\ 0 <= le_Z (compress DalekOf e) < p /\
  rfc_decodes p d (of_Z p (le_Z (compress DalekOf e))) (ptx e) (pty e).
Proof.
  rewrite compress_length, compress_value, of_Z_fval. split; [reflexivity|]. split; [exact (fval_range p Hp (sof e))|apply elem_decodes].
Qed.

Lemma same_cos P Q : rfc_same p (ex p d P) (ey p d P) (ex p d Q) (ey p d Q) <-> cos R RL P Q.
Proof.
  rewrite <- (equals_cos R RL). unfold equals. rewrite orb_true_iff, !feqb_spec. unfold rfc_same. tauto.
Qed.

Lemma same_eq e e' : rfc_same p (ptx e) (pty e) (ptx e') (pty e') -> e = e'.
Proof. intros H. apply (pt_cos R RL). now apply same_cos. Qed.

Lemma same_iff e e' : rfc_same p (ptx e) (pty e) (ptx e') (pty e') <-> e = e'.
Proof. split; [apply same_eq|]. intros ->. apply same_cos. apply (cos_refl R RL). Qed.

Lemma sum_exists x1 y1 x2 y2 : edwards p d x1 y1 -> edwards p d x2 y2 ->
  exists x3 y3, edwards_sum p d x1 y1 x2 y2 x3 y3 /\ edwards p d x3 y3.
Proof.
  intros H1 H2. apply (proj2 (feqb_spec _ _)) in H1, H2.
  change (on_edwards p d x1 y1 = true) in H1. change (on_edwards p d x2 y2 = true) in H2.
  set (P := mkE p d x1 y1 H1). set (Q := mkE p d x2 y2 H2).
  exists (ex p d (eadd p d Hp P Q)), (ey p d (eadd p d Hp P Q)).
  destruct (add_xy R RL P Q) as [-> ->]. destruct (add_den R RL P Q) as [D1 D2]. cbn [ex ey P Q] in *.
  split.
  - unfold edwards_sum. exact (sum_cancel R RL x1 y1 x2 y2 D1 D2).
  - pose proof (Edwards.sum_on p d Hp (p_big R RL) i (i_square R RL) (d_nonsquare R RL) _ _ _ _ H1 H2) as Ho. now apply feqb_spec in Ho.
Qed.

Lemma add_sum e1 e2 x3 y3 : edwards_sum p d (ptx e1) (pty e1) (ptx e2) (pty e2) x3 y3 ->
  rfc_same p x3 y3 (ptx (rp_add DalekOf e1 e2)) (pty (rp_add DalekOf e1 e2)).
Proof.
  intros [H1 H2].
  destruct (eadd_unique p d Hp (p_big R RL) i (i_square R RL) (d_nonsquare R RL) _ _ _ _ H1 H2) as [<- <-].
  apply same_cos. apply (class_cos R RL). apply even_add; apply rp_even.
Qed.

Lemma edwards_elem e : edwards p d (ptx e) (pty e).
Proof. apply feqb_spec, e_on. Qed.

Lemma base_same : rfc_same p (of_Z p (rbx R)) (of_Z p (rby R)) (ptx (rp_base DalekOf)) (pty (rp_base DalekOf)).
Proof.
  pose proof (class_cos R RL _ (B_even R RL)) as H. apply same_cos in H.
  rewrite (epoint_on _ _ _ _ _ (base_on R RL)) in H at 1 2. exact H.
Qed.

(** Two elements that share a point of the curve. *)
Lemma same_trans x y e e' : rfc_same p x y (ptx e) (pty e) -> rfc_same p x y (ptx e') (pty e') ->
  edwards p d x y -> rfc_same p (ptx e) (pty e) (ptx e') (pty e').
Proof.
  intros H H' Ho. apply (proj2 (feqb_spec _ _)) in Ho. change (on_edwards p d x y = true) in Ho.
  change x with (ex p d (mkE p d x y Ho)) in H, H'. change y with (ey p d (mkE p d x y Ho)) in H, H'.
  apply same_cos in H, H'. apply same_cos. exact (cos_trans R RL _ _ _ (cos_sym R RL _ _ H) H').
Qed.

(** ** The one-way map *)
Lemma sqrt_ratio_unique u v b r b' r' : rfc_sqrt_ratio p i u v b r -> rfc_sqrt_ratio p i u v b' r' -> b = b' /\ r = r'.
Proof.
  assert (Go : forall b r, rfc_sqrt_ratio p i u v b r -> b = fst (sqrt_ratio_m1 R u v) /\ r = snd (sqrt_ratio_m1 R u v)).
  { clear b r b' r'. intros b r (N & C1 & C2 & C3 & C4). pose proof (sqrt_ratio_spec R RL u v) as (N' & D1 & D2 & D3 & D4).
    destruct (sqrt_ratio_m1 R u v) as [b0 r0]. cbn [fst snd] in *.
    destruct (fdec R u (f0 p)) as [Eu|Hu].
    { destruct (C2 Eu) as [-> ->], (D2 Eu) as [-> ->]. auto. }
    destruct (fdec R v (f0 p)) as [Ev|Hv].
    { destruct (C3 Hu Ev) as [-> ->], (D3 Hu Ev) as [-> ->]. auto. }
    destruct b0.
    - assert (Hz : exists z, fmul p z z = fmul p u (finv p v)).
      { pose proof (sqrt_ratio_ok R RL u v Hu Hv) as H. destruct (fdec R (fmul p r0 r0) (fmul p u (finv p v))) as [E|E]; [now exists r0|].
        exfalso. pose proof (D4 Hu Hv) as K. assert (Hno : ~ exists z, fmul p z z = fmul p u (finv p v)).
        { intros Hz. now destruct (D1 Hu Hv Hz). }
        destruct (K Hno) as [K' _]. discriminate. }
      destruct (C1 Hu Hv Hz) as [-> E1], (D1 Hu Hv Hz) as [_ E2]. split; [reflexivity|].
      apply (pos_sq R RL); auto. now rewrite E1, E2.
    - assert (Hno : ~ exists z, fmul p z z = fmul p u (finv p v)).
      { intros Hz. destruct (D1 Hu Hv Hz) as [K _]. discriminate. }
      destruct (C4 Hu Hv Hno) as [-> E1], (D4 Hu Hv Hno) as [_ E2]. split; [reflexivity|].
      apply (pos_sq R RL); auto. now rewrite E1, E2. }
  intros H H'. apply Go in H as [-> ->], H' as [-> ->]. auto.
Qed.

Lemma map_unique q t x y x' y' : rfc_map p d i q t x y -> rfc_map p d i q t x' y' -> x = x' /\ y = y'.
Proof.
  unfold rfc_map. cbv zeta. intros (b & s0 & s & c & S & T & N & -> & ->) (b' & s0' & s' & c' & S' & T' & N' & -> & ->).
  destruct (sqrt_ratio_unique _ _ _ _ _ _ S S') as [<- <-].
  assert (E : s = s' /\ c = c'); [|now destruct E as [-> ->]].
  destruct b.
  - destruct (T eq_refl) as [-> ->], (T' eq_refl) as [-> ->]. auto.
  - destruct (N eq_refl) as (-> & P1 & Q1), (N' eq_refl) as (-> & P2 & Q2). split; [|reflexivity].
    assert (E : fopp p s = fopp p s').
    { apply (pos_sq R RL); auto. exact (neg_squares R RL _ _ _ Q1 Q2). }
    exact (opp_inj R RL _ _ E).
Qed.

(** Any even points; here the two values of the map. *)
Lemma map_point t : exists P, even R P /\ affine R Hp (rmap R t) = P /\
  rfc_map p d i (SQRT_AD_MINUS_ONE R) t (ex p d P) (ey p d P).
Proof.
  pose proof (rmap_ok R RL t) as H. destruct (rmap R t) as [[[x y] z] xy]. destruct H as (_ & _ & Ho & He & Hm).
  eexists. split; [|split; [reflexivity|]]; unfold affine; rewrite (epoint_on _ _ _ _ _ Ho).
  - exact He.
  - exact Hm.
Qed.

Lemma uniform_point b : exists x0 y0 x1 y1 x3 y3,
  let e := from_uniform_bytes DalekOf b in
  rfc_map p d i (SQRT_AD_MINUS_ONE R) (of_Z p (le_Z (firstn 32 b) mod 2 ^ 255)) x0 y0 /\
  rfc_map p d i (SQRT_AD_MINUS_ONE R) (of_Z p (le_Z (skipn 32 b) mod 2 ^ 255)) x1 y1 /\
  edwards p d x0 y0 /\ edwards p d x1 y1 /\ edwards_sum p d x0 y0 x1 y1 x3 y3 /\
  rfc_same p x3 y3 (ptx e) (pty e).
Proof.
  cbv zeta. change (from_uniform_bytes DalekOf b) with (rfrom_uniform R Hp (id_rep R RL) b).
  unfold rfrom_uniform, half. 
  destruct (map_point (of_Z p (le_Z (firstn 32 b) mod 2 ^ 255))) as (P & EP & -> & MP).
  destruct (map_point (of_Z p (le_Z (skipn 32 b) mod 2 ^ 255))) as (Q & EQ & -> & MQ).
  exists (ex p d P), (ey p d P), (ex p d Q), (ey p d Q), (ex p d (eadd p d Hp P Q)), (ey p d (eadd p d Hp P Q)).
  split; [exact MP|]. split; [exact MQ|]. split; [apply feqb_spec, e_on|]. split; [apply feqb_spec, e_on|]. split.
  - destruct (add_xy R RL P Q) as [-> ->]. destruct (add_den R RL P Q) as [D1 D2]. exact (sum_cancel R RL _ _ _ _ D1 D2).
  - apply same_cos. apply (class_cos R RL). now apply even_add.
Qed.

(** Points that stand for elements, and the sum of two values of the map. *)
Lemma uniform_of b x0 y0 x1 y1 x3 y3 e :
  rfc_map p d i (SQRT_AD_MINUS_ONE R) (of_Z p (le_Z (firstn 32 b) mod 2 ^ 255)) x0 y0 ->
  rfc_map p d i (SQRT_AD_MINUS_ONE R) (of_Z p (le_Z (skipn 32 b) mod 2 ^ 255)) x1 y1 ->
  edwards_sum p d x0 y0 x1 y1 x3 y3 -> rfc_same p x3 y3 (ptx e) (pty e) -> from_uniform_bytes DalekOf b = e.
Proof.
  intros M0 M1 [S1 S2] Hs. change (from_uniform_bytes DalekOf b) with (rfrom_uniform R Hp (id_rep R RL) b).
  unfold rfrom_uniform, half.
  destruct (map_point (of_Z p (le_Z (firstn 32 b) mod 2 ^ 255))) as (P & EP & -> & MP).
  destruct (map_point (of_Z p (le_Z (skipn 32 b) mod 2 ^ 255))) as (Q & EQ & -> & MQ).
  destruct (map_unique _ _ _ _ _ _ M0 MP) as [-> ->]. destruct (map_unique _ _ _ _ _ _ M1 MQ) as [-> ->].
  destruct (eadd_unique p d Hp (p_big R RL) i (i_square R RL) (d_nonsquare R RL) _ _ _ _ S1 S2) as [<- <-].
  apply same_cos in Hs. apply (pt_cos R RL). apply (cos_trans R RL _ (eadd p d Hp P Q)); [|exact Hs].
  apply (cos_sym R RL). apply (class_cos R RL). now apply even_add.
Qed.
End Props.
