(** * PropNistCases: inputs of P256-SHA256 that meet the hypotheses of C46,
    C47 and C48.

    The points are found outside; Coq checks them against the RFC's
    definition, with [rfc_sswu_unique]. *)
From Verif Require Import NistCurve NistFacts NistSpec Nist256 NistProps NistCheck Sha2 EllipticCurveFacts SuiteRuns.
From Verif Require Import PropNist GroupFacts PropCorrectness PropGroups Primes.
From Coq Require Import Znumtheory.
Open Scope Z_scope.

Local Notation p := (pp P256).

Definition expand256 (msg tag : bytes) (n : N) : bytes := expand_message_xmd (sha2 SHA256) 32 64 msg tag n.
Lemma expand256_eq msg tag : expand_message_xmd (digest (hash_of SHA256)) (output_size (hash_of SHA256))
  (block_size (hash_of SHA256)) msg tag (2 * pl P256) = expand256 msg tag 96.
Proof.
  unfold expand256. change (digest (hash_of SHA256)) with (sha2 SHA256).
  change (block_size (hash_of SHA256)) with 64%N. change (output_size (hash_of SHA256)) with 32%N.
  change (2 * pl P256)%N with 96%N. reflexivity.
Qed.
Lemma case_checked pick fuel msg tag c : tag <> [] -> hash_check P256 (expand256 msg tag 96) c = true ->
  let G := CurveGroup (NistCurve P256 pick) fuel in
  exists Q, hash_to_curve G (hash_of SHA256) [msg] [tag] = Ok Q /\ Q <> identity_elem G /\
  exists P0 P1, affine P256 P0 = Some (snd (fst (fst c)), snd (fst c)) /\
                affine P256 P1 = Some (snd (fst (snd c)), snd (snd c)) /\ Q = elem_add G P0 P1.
Proof.
  intros Ht Hc.
  exact (hash_checked' P256 p256_laws pick _ sha256_laws (p256_okm pick) fuel _ _ _ _ Ht (expand256_eq _ _) Hc).
Qed.

(** One input for each mode. *)
Definition case_input (mode : N) : bytes :=
  match mode with 0%N => str "input2" | 1%N => str "input0" | _ => str "input3" end.
Definition case_points (mode : N) : (Z * Z * Z * Z) * (Z * Z * Z * Z) :=
  match mode with
  | 0%N => ((0x3b5aa509ec75214779be577451d87babb839dc1d039bab1771554ac2267d20a,
    0x70bd07a83d329cc4c6826a8ea07f90fc9d145456b408dbd17ab545e32d8b9c52,
    0xb944601c76dbfedd98bb7138856f7a030b58d0bb416b9d9f41160365580443ff,
    0x3013db3aad16ebffb82d336bbb2c0d05b00d445a6771a7dbee7c466844c938b8),
   (0x2867adcb8f1737d0ccf4024eb440bf9946b59dc84da4952956b3c0c38727e2f5,
    0xafce9989b7bb0835a3273a336e89f09992a7698ffafa19fe7fcb6081fda17d53,
    0x95608c4f36d2d501a7034d3d2aae6166d4e1ea331ebdda48695095f72c2555cb,
    0x3da320d9eb6a71db08abc52c6990a6b96b213252b5c3b6dcbc90467d3dda4d99))
  | 1%N => ((0xdace1c1ce254b76fc5da6844fb3e5915702b43ec1bb97795764daf83bdb2be84,
    0x1949e6195d31984cb2681c8ebe0e3bdaa64acb677be89d74f4639d50bc1d181,
    0x9ea55b18fb75f36d6f593f4b3c598a726f258892e1d5277e3f4a204be6a8d6c1,
    0x58e0caa0c140d49ad032897de317e8aeedce03b696ef5d7990ff6d1f04efb670),
   (0xb55cd10007b8e247e44a039711e287fcb3acae6ec8cc1c24778d2c2bc07417a0,
    0x16381ae4ac576f2a4e50a837cc64006aaceb61922204a2ad6d28543d16dc44ee,
    0xc10691c9d315f0364ef3c49f5ba53195988b41874a584367d74d318f20af6934,
    0x75f0728535940897c8ec09c93299051a6a10b79471fd47670138bb6a9e680788))
  | _ => ((0x85f5c4cbea49cd596081ebb37f12d9f7627c783d8209b00954d17c300cee68a5,
    0x417c37a434fc4ce0b9424de77d6b52086e9fc38a9f62768dacead4397148c616,
    0x6fe0fb0ddf6e6fe2e2e19117c7791d3d14088fb7cb8926f071c41a1d0d609f43,
    0xc6559c7e7cb0dec235d52f29e3aa6979511a06bbd3e33f756f38bc43b9575aad),
   (0x86a5cbfcc2d3d28e4e8adea3599d9f65ef2e165f79b58109b3f5672fc7de9a69,
    0x43e3d992d14f5b0caa6906dbd1a9367ed7e22488a548271d4686a0d48c190874,
    0xabfd2dbb2e4854740dee170c641118313424433079499838420bd46d308981c5,
    0x3525bfacec3e97253970265ebd2fad8f0e0c02450c365849f0dc4cb939b43c1))
  end.
Definition tag256 (mode : N) : bytes := str "HashToGroup-OPRFV1-" ++ I2OSP mode 1 ++ str "-P256-SHA256".

Lemma case_hash0 : hash_check P256 (expand256 (case_input 0) (tag256 0) 96) (case_points 0) = true.
Proof. vm_compute. reflexivity. Qed.
Lemma case_hash1 : hash_check P256 (expand256 (case_input 1) (tag256 1) 96) (case_points 1) = true.
Proof. vm_compute. reflexivity. Qed.
Lemma case_hash2 : hash_check P256 (expand256 (case_input 2) (tag256 2) 96) (case_points 2) = true.
Proof. vm_compute. reflexivity. Qed.

Lemma tag256_group_tag pick fuel mode : group_tag (P256_SHA256 pick fuel) mode = tag256 mode.
Proof. reflexivity. Qed.
Lemma tag256_neq mode : tag256 mode <> []. Proof. discriminate. Qed.

Lemma scalar_tag256 pick fuel : scalar_tag (P256_SHA256 pick fuel) 2
  = str "HashToScalar-OPRFV1-" ++ I2OSP 2 1 ++ str "-P256-SHA256".
Proof. reflexivity. Qed.

(** A generator of random bytes with which sampling ends. *)
Definition FiveRng : Rng := {| rng_state := unit; fill_bytes := fun st n => (repeat x05 n, st) |}.
Lemma five_ends pick fuel : sampling_ends (CSGroup (P256_SHA256 pick (S fuel))) FiveRng tt.
Proof.
  destruct (C38_curve_random (NistCurve P256 pick) (nist_curve_laws P256 p256_laws pick) (S fuel) FiveRng tt)
    as [H _].
  destruct (H 0%nat) as (s & E & _); [lia|intros j Hj; lia| |].
  - assert (K : ((0 <? be_Z (repeat x05 32)) && (be_Z (repeat x05 32) <? n_p256))%bool = true) by (vm_compute; reflexivity).
    apply andb_true_iff in K. rewrite !Z.ltb_lt in K. exact K.
  - unfold sampling_ends.
    change (random_scalar (CSGroup (P256_SHA256 pick (S fuel))) FiveRng tt)
      with (random_scalar (CurveGroup (NistCurve P256 pick) (S fuel)) FiveRng tt).
    rewrite E. discriminate.
Qed.

(** C47: the hash of an input, from the two points of the RFC. *)
Example C47_case : forall pick fuel, let G := CSGroup (P256_SHA256 pick fuel) in
  exists Q, hash_to_curve G (hash_of SHA256) [str "input2"] [tag256 0] = Ok Q /\ Q <> identity_elem G /\
  exists P0 P1,
    affine P256 P0 = Some (0xb944601c76dbfedd98bb7138856f7a030b58d0bb416b9d9f41160365580443ff,
                           0x3013db3aad16ebffb82d336bbb2c0d05b00d445a6771a7dbee7c466844c938b8) /\
    affine P256 P1 = Some (0x95608c4f36d2d501a7034d3d2aae6166d4e1ea331ebdda48695095f72c2555cb,
                           0x3da320d9eb6a71db08abc52c6990a6b96b213252b5c3b6dcbc90467d3dda4d99) /\
    Q = elem_add G P0 P1.
Proof. intros pick fuel G. exact (case_checked pick fuel _ _ _ (tag256_neq 0) case_hash0). Qed.

Lemma case_info : be_Z (expand_message_xmd (sha2 SHA256) 32 64 (str "Info" ++ lv (str "info")) (str "HashToScalar-OPRFV1-" ++ I2OSP 2 1 ++ str "-P256-SHA256") 48)
    mod n_p256 = 0x64b18a69b32a75eeb8b61e98302a082fd8665ed54a508eede309a90d20b665ec.
Proof. vm_compute. reflexivity. Qed.

(** C48: the hypotheses of each of the three protocols are met, for the
    private key 7 and draws that start with acceptable bytes. *)
Example C48_case : forall pick fuel,
  let CS := P256_SHA256 pick (S fuel) in
  let G := CSGroup CS in
  let sk : scalar CS := of_Z n_p256 7 in
  (exists Q, (len (case_input 0) <= 65535)%N /\
     hash_to_curve G (CSHash CS) [case_input 0] [group_tag CS 0] = Ok Q /\ Q <> identity_elem G) /\
  (exists Q, (len (case_input 1) <= 65535)%N /\
     hash_to_curve G (CSHash CS) [case_input 1] [group_tag CS 1] = Ok Q /\ Q <> identity_elem G) /\
  (exists Q m E, (len (case_input 2) <= 65535)%N /\
     hash_to_curve G (CSHash CS) [case_input 2] [group_tag CS 2] = Ok Q /\ Q <> identity_elem G /\
     hash_to_scalar G (CSHash CS) [str "Info" ++ lv (str "info")] [scalar_tag CS 2] = Ok m /\
     scalar_add G sk m <> zero_scalar G /\ elem_mul G E (scalar_add G sk m) = Q) /\
  sampling_ends G FiveRng tt.
Proof.
  intros pick fuel CS G sk.
  assert (H0 := case_checked pick (S fuel) _ _ _ (tag256_neq 0) case_hash0).
  assert (H1 := case_checked pick (S fuel) _ _ _ (tag256_neq 1) case_hash1).
  assert (H2 := case_checked pick (S fuel) _ _ _ (tag256_neq 2) case_hash2).
  cbv zeta in H0, H1, H2.
  destruct H0 as (Q0 & E0 & N0 & _). destruct H1 as (Q1 & E1 & N1 & _). destruct H2 as (Q2 & E2 & N2 & _).
  split; [exists Q0; split; [discriminate|]; split; [exact E0|exact N0]|].
  split; [exists Q1; split; [discriminate|]; split; [exact E1|exact N1]|].
  split; [|exact (five_ends pick fuel)].
  destruct (C47_p256_hash pick (S fuel) [str "Info" ++ lv (str "info")] [scalar_tag CS 2]) as (_ & _ & m & Em & Vm).
  { discriminate. }
  cbn [concat] in Vm. rewrite !app_nil_r in Vm. unfold CS in Vm.
  assert (Vm' : fval m = 0x64b18a69b32a75eeb8b61e98302a082fd8665ed54a508eede309a90d20b665ec)
    by (rewrite Vm, scalar_tag256; exact case_info).
  assert (Ht : scalar_add G sk m <> zero_scalar G).
  { intros Hz. pose proof (f_equal fval Hz) as Hv.
    change ((fval sk + fval m) mod n_p256 = 0 mod n_p256) in Hv. rewrite Vm' in Hv.
    apply Z.eqb_eq in Hv. revert Hv. change (fval sk) with (7 mod n_p256).
    assert (K : (7 mod n_p256 + 0x64b18a69b32a75eeb8b61e98302a082fd8665ed54a508eede309a90d20b665ec) mod n_p256
       =? 0 mod n_p256 = false) by (vm_compute; reflexivity).
    intros Hv. rewrite K in Hv. discriminate. }
  pose proof (curve_group_laws (nist_curve_laws P256 p256_laws pick) (S fuel)) as GL.
  exists Q2, m, (elem_mul G Q2 (s_inv GL (scalar_add G sk m))).
  split; [discriminate|]. split; [exact E2|]. split; [exact N2|]. split; [exact Em|]. split; [exact Ht|].
  exact (mul_inv_cancel' GL Q2 _ Ht).
Qed.

(** C46: the base point is read from its encoding; one more than an x
    coordinate of the field is refused, as is an x coordinate without a
    point. *)
Example C46_case : forall pick fuel,
  let G := CSGroup (P256_SHA256 pick fuel) in
  let gx := I2OSP (Z.to_N (pgx P256)) 32 in
  deserialize_elem G (x03 :: gx) = Ok (base_elem G) /\
  deserialize_elem G (x02 :: gx) <> Ok (base_elem G) /\
  deserialize_elem G (x02 :: I2OSP (Z.to_N p) 32) = Err EDeserialization.
Proof.
  intros pick fuel G gx.
  destruct (C46_p256_elements pick fuel) as (_ & _ & _ & _ & Hu & Hs & Hc & Hn & Hser & Hg & _).
  assert (Hb : be_Z gx = pgx P256) by (vm_compute; reflexivity).
  assert (Hl : length gx = 32%nat) by apply I2OSP_length.
  split; [|split].
  - destruct (Hser _ _ _ Hg) as (xb & E & El & Ex). assert (Eb : xb = gx).
    { apply be_Z_inj; [congruence|]. rewrite Hb. exact Ex. }
    rewrite <- Eb. change (x03 :: xb) with ((if Z.odd (pgy P256) then x03 else x02) :: xb).
    change (serialize_elem G (base_elem G) = (if Z.odd (pgy P256) then x03 else x02) :: xb) in E.
    rewrite <- E. apply (ec_elem_roundtrip (nist_curve_laws P256 p256_laws pick)).
    exact (gen_neq P256 p256_laws).
  - intros E. destruct (Hs _ _ E) as (x & y & Ea & (_ & xb & _ & _ & K)).
    assert (Ey : y = pgy P256).
    { pose proof (eq_trans (eq_sym Ea) Hg) as Exy. apply (f_equal (option_map snd)) in Exy.
      cbn [option_map snd] in Exy. apply (f_equal (fun o => match o with Some z => z | None => 0 end)) in Exy. exact Exy. }
    subst y.
    assert (Hodd : Z.odd (pgy P256) = true) by (vm_compute; reflexivity).
    destruct K as [[Kb K]|[[Kb K]|[Kb|(yb & _ & _ & Kb)]]]; apply (f_equal (hd x00)) in Kb; cbn [hd] in Kb;
      try discriminate Kb; rewrite Hodd in K; discriminate K.
  - apply Hn. intros x y ((Hx & _) & xb & El & Ex & K).
    assert (Hpb : be_Z (I2OSP (Z.to_N p) 32) = p) by (vm_compute; reflexivity).
    set (pb := I2OSP (Z.to_N p) 32) in *. clearbody pb.
    destruct K as [[K _]|[[K _]|[K|(yb & _ & _ & K)]]]; try discriminate K.
    assert (K' : pb = xb) by (apply (f_equal (@tl _)) in K; exact K).
    rewrite K', Ex in Hpb. rewrite Hpb in Hx.
    destruct Hx as [_ Hx]. rewrite p256_p in Hx. exact (Z.lt_irrefl _ Hx).
Qed.
