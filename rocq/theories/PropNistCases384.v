(** * PropNistCases384: inputs of P384-SHA384 that meet the hypotheses of C46,
    C47 and C48.

    The points are found outside; Coq checks them against the RFC's
    definition, with [rfc_sswu_unique]. *)
(* Written by /verif/tools/gen_cases.py from PropNistCases.v. *)
From Verif Require Import NistCurve NistFacts NistSpec Nist384 NistProps NistCheck Sha2 EllipticCurveFacts SuiteRuns.
From Verif Require Import PropNist384 GroupFacts PropCorrectness PropGroups.
From Coq Require Import Znumtheory.
Open Scope Z_scope.

Local Notation p := (pp P384).

Definition expand384 (msg tag : bytes) (n : N) : bytes := expand_message_xmd (sha2 SHA384) 48 128 msg tag n.
Lemma expand384_eq msg tag : expand_message_xmd (digest (hash_of SHA384)) (output_size (hash_of SHA384))
  (block_size (hash_of SHA384)) msg tag (2 * pl P384) = expand384 msg tag 144.
Proof.
  unfold expand384. change (digest (hash_of SHA384)) with (sha2 SHA384).
  change (block_size (hash_of SHA384)) with 128%N. change (output_size (hash_of SHA384)) with 48%N.
  change (2 * pl P384)%N with 144%N. reflexivity.
Qed.
Lemma case_checked pick fuel msg tag c : tag <> [] -> hash_check P384 (expand384 msg tag 144) c = true ->
  let G := CurveGroup (NistCurve P384 pick) fuel in
  exists Q, hash_to_curve G (hash_of SHA384) [msg] [tag] = Ok Q /\ Q <> identity_elem G /\
  exists P0 P1, affine P384 P0 = Some (snd (fst (fst c)), snd (fst c)) /\
                affine P384 P1 = Some (snd (fst (snd c)), snd (snd c)) /\ Q = elem_add G P0 P1.
Proof.
  intros Ht Hc.
  exact (hash_checked' P384 p384_laws pick _ sha384_laws (p384_okm pick) fuel _ _ _ _ Ht (expand384_eq _ _) Hc).
Qed.

(** One input for each mode. *)
Definition case_input (mode : N) : bytes :=
  match mode with 0%N => str "input1" | 1%N => str "input1" | _ => str "input4" end.
Definition case_points (mode : N) : (Z * Z * Z * Z) * (Z * Z * Z * Z) :=
  match mode with
  | 0%N => ((0x248c7b3f5759b00bed044d40dfb9591b616632d42ff446cdfa2ba4dd0d4d73a6008c32174b2c6733d82a497727b6b591,
    0x67ca6897e4c8fff6b0621962e314a3066789de6dfb3646dc75a2986e1ea3dafedb56c95e9d39021db5241896697a92be,
    0xe9caefc9e449e80e57e2844fb4fc15bc8b59e046f3d7ea0022a756c1e9629d48ba78a095773587b34c52c815b057c5,
    0x60e1a8faa8f28fd5a26dbb17d035adfdd3c7b2a84556d7e3dbb62f1f70e02c0c11fc8fa0f2d2085b7b671d99c14ed095),
   (0xf0f5a8f35dfa910658e85b32570e92f71399de84789eff85bbeb745f04aac6e9d4fe41c66dec8560873f3c1442b64366,
    0x52fad16f0c9b28536d22b1847533da310fdab183f821dee4827311ed3ca907cfc6e886e6aee2778d90f0887aea3419cc,
    0xebfbd1ec45a0e21fb77fde962913fa88922d44ddaf1c8ff2a0fa0e53ad9249d759ff3b9735ea43f233ff9fa0d52e6aa2,
    0x3428761693e1b21e89d148fe7ebf1dbe77a63afad2e1dcc00d4dd56d9ec9770601a961fad1758eecb20961bb9dd14792))
  | 1%N => ((0x38fef6fc4e43c970259d4f1ae6c335dbdd75c48a10259c8c2cb62bd4898034e9efcfc1489458b6ccf73ae8609dab8154,
    0xaa52738605eaf9c9c881659aa1b811db55115e6bbc9cd9b773d97fa4b4cd954e3d8c8b7bc60d48ec0d03e9a7d10e4f74,
    0x95b00763d454128c0d6aa2731490c2f2d3dfc08164772e0f3f605d3be64af31b4d505d94f53ad50b29ba0d43e1b5aa82,
    0x9d124342ed4a9ba527e35bcaa6746123ea75fbb8184f3c8e49aa3d4dc14900c4bc2a35505ba8ad30dfb18ac0f16ae38c),
   (0x633c56b06c3a14bd62257041c501729ddc3acbf9b14aae773905201c6acf710774ee67f855f5fd39f44d29ac4f444d82,
    0x20b74af74f446d53da872da7e1b0c227c4bcd694f5ca042a00045b4076559d4425872fbe0ee3b8060589b27ffcd78f5,
    0x268ee9075aee47dda575eef376575fbb7941536002aa86514d569bf39ea3d8554fae116c6836d7f0b7359f92c5b2e2db,
    0x1c004e97cc3e1224566e780c6993ddfe075406de15b08d216a063a0446f276c3ed9e960db2dc691c74312380d36e9342))
  | _ => ((0xb7f98cf194309ab37f3531cdc1e273cca54c82539c6ff06d46a0356deaaa62d80e70267fe0b2d48771c1826ee67278a8,
    0x96a1cd693b1c24641306bf067617a71c2176e1fce255538d73b041970280c09c640af3520c4761ffc27a7750da40c3ae,
    0xbd5185b7db056a7630167058c63d8f7704384812d45d7b6465d4a60d482a4c0c6fed489efa1f75a90500265755b17257,
    0xa901ae6df4c2a8c968d1da51dad185fa02ffcb33d5428794c1571a19c2047800aefb1c7b3302f11d8bb5770c0e23c726),
   (0x941c647c246fc72acbd486b6003a4bade2f08408da21f0072e61eec68a3f2e3dad736359242fd454735894bba5b158f,
    0xd7159078c113ec45d4f49e72d098c8ef55b4e5e224ca48f5345be01337d59711dbe9434c88d6dcd33e9dea7ff7cc92f9,
    0xe0eac81e96cdbba5e513ba549af7115172e57f59481c9a7c144fdaa4acee35f69cadcbc719e3e6c4b73eff8338288579,
    0x8e2ac4aebe6deb9a2c993aca868cd1789f9cbcf537d696ac93aa7272bba3fbc23ec79f7dec15444ad0809c46b9894377))
  end.
Definition tag384 (mode : N) : bytes := str "HashToGroup-OPRFV1-" ++ I2OSP mode 1 ++ str "-P384-SHA384".

Lemma case_hash0 : hash_check P384 (expand384 (case_input 0) (tag384 0) 144) (case_points 0) = true.
Proof. vm_compute. reflexivity. Qed.
Lemma case_hash1 : hash_check P384 (expand384 (case_input 1) (tag384 1) 144) (case_points 1) = true.
Proof. vm_compute. reflexivity. Qed.
Lemma case_hash2 : hash_check P384 (expand384 (case_input 2) (tag384 2) 144) (case_points 2) = true.
Proof. vm_compute. reflexivity. Qed.

Lemma tag384_group_tag pick fuel mode : group_tag (P384_SHA384 pick fuel) mode = tag384 mode.
Proof. reflexivity. Qed.
Lemma tag384_neq mode : tag384 mode <> []. Proof. discriminate. Qed.

Lemma scalar_tag384 pick fuel : scalar_tag (P384_SHA384 pick fuel) 2
  = str "HashToScalar-OPRFV1-" ++ I2OSP 2 1 ++ str "-P384-SHA384".
Proof. reflexivity. Qed.

(** A generator of random bytes with which sampling ends. *)
Definition FiveRng : Rng := {| rng_state := unit; fill_bytes := fun st n => (repeat x05 n, st) |}.
Lemma five_ends pick fuel : sampling_ends (CSGroup (P384_SHA384 pick (S fuel))) FiveRng tt.
Proof.
  destruct (C38_curve_random (NistCurve P384 pick) (nist_curve_laws P384 p384_laws pick) (S fuel) FiveRng tt)
    as [H _].
  destruct (H 0%nat) as (s & E & _); [lia|intros j Hj; lia| |].
  - assert (K : ((0 <? be_Z (repeat x05 48)) && (be_Z (repeat x05 48) <? (pn P384)))%bool = true) by (vm_compute; reflexivity).
    apply andb_true_iff in K. rewrite !Z.ltb_lt in K. exact K.
  - unfold sampling_ends.
    change (random_scalar (CSGroup (P384_SHA384 pick (S fuel))) FiveRng tt)
      with (random_scalar (CurveGroup (NistCurve P384 pick) (S fuel)) FiveRng tt).
    rewrite E. discriminate.
Qed.

(** C47: the hash of an input, from the two points of the RFC. *)
Example C47_case384 : forall pick fuel, let G := CSGroup (P384_SHA384 pick fuel) in
  exists Q, hash_to_curve G (hash_of SHA384) [str "input1"] [tag384 0] = Ok Q /\ Q <> identity_elem G /\
  exists P0 P1,
    affine P384 P0 = Some (0xe9caefc9e449e80e57e2844fb4fc15bc8b59e046f3d7ea0022a756c1e9629d48ba78a095773587b34c52c815b057c5,
                           0x60e1a8faa8f28fd5a26dbb17d035adfdd3c7b2a84556d7e3dbb62f1f70e02c0c11fc8fa0f2d2085b7b671d99c14ed095) /\
    affine P384 P1 = Some (0xebfbd1ec45a0e21fb77fde962913fa88922d44ddaf1c8ff2a0fa0e53ad9249d759ff3b9735ea43f233ff9fa0d52e6aa2,
                           0x3428761693e1b21e89d148fe7ebf1dbe77a63afad2e1dcc00d4dd56d9ec9770601a961fad1758eecb20961bb9dd14792) /\
    Q = elem_add G P0 P1.
Proof. intros pick fuel G. exact (case_checked pick fuel _ _ _ (tag384_neq 0) case_hash0). Qed.

Lemma case_info : be_Z (expand_message_xmd (sha2 SHA384) 48 128 (str "Info" ++ lv (str "info")) (str "HashToScalar-OPRFV1-" ++ I2OSP 2 1 ++ str "-P384-SHA384") 72)
    mod (pn P384) = 0xd44dd9ee29e9ce1a28eb57093f06e8eaa5f0d486f4ba913278317474e636b7c8ff9db9be5839b208250d341a27ce2aab.
Proof. vm_compute. reflexivity. Qed.

(** C48: the hypotheses of each of the three protocols are met, for the
    private key 7 and draws that start with acceptable bytes. *)
Example C48_case384 : forall pick fuel,
  let CS := P384_SHA384 pick (S fuel) in
  let G := CSGroup CS in
  let sk : scalar CS := of_Z (pn P384) 7 in
  (exists Q, (len (case_input 0) <= 65535)%N /\
     hash_to_curve G (CSHash CS) [case_input 0] [group_tag CS 0] = Ok Q /\ Q <> identity_elem G) /\
  (exists Q, (len (case_input 1) <= 65535)%N /\
     hash_to_curve G (CSHash CS) [case_input 1] [group_tag CS 1] = Ok Q /\ Q <> identity_elem G) /\
  (exists Q m E, (len (case_input 2) <= 65535)%N /\
     hash_to_curve G (CSHash CS) [case_input 2] [group_tag CS 2] = Ok Q /\ Q <> identity_elem G /\
     hash_to_scalar G (CSHash CS) [str "Info" ++ lv (str "info")] [scalar_tag CS 2] = Ok m /\
     scalar_add G sk m <> zero_scalar G /\ elem_mul G E (scalar_add G sk m) = Q) /\
  sampling_ends G FiveRng tt.
Proof.
  intros pick fuel CS G sk.
  assert (H0 := case_checked pick (S fuel) _ _ _ (tag384_neq 0) case_hash0).
  assert (H1 := case_checked pick (S fuel) _ _ _ (tag384_neq 1) case_hash1).
  assert (H2 := case_checked pick (S fuel) _ _ _ (tag384_neq 2) case_hash2).
  cbv zeta in H0, H1, H2.
  destruct H0 as (Q0 & E0 & N0 & _). destruct H1 as (Q1 & E1 & N1 & _). destruct H2 as (Q2 & E2 & N2 & _).
  split; [exists Q0; split; [discriminate|]; split; [exact E0|exact N0]|].
  split; [exists Q1; split; [discriminate|]; split; [exact E1|exact N1]|].
  split; [|exact (five_ends pick fuel)].
  destruct (C47_p384_hash pick (S fuel) [str "Info" ++ lv (str "info")] [scalar_tag CS 2]) as (_ & _ & m & Em & Vm).
  { discriminate. }
  cbn [concat] in Vm. rewrite !app_nil_r in Vm. unfold CS in Vm.
  assert (Vm' : fval m = 0xd44dd9ee29e9ce1a28eb57093f06e8eaa5f0d486f4ba913278317474e636b7c8ff9db9be5839b208250d341a27ce2aab)
    by (rewrite Vm, scalar_tag384; exact case_info).
  assert (Ht : scalar_add G sk m <> zero_scalar G).
  { intros Hz. pose proof (f_equal fval Hz) as Hv.
    change ((fval sk + fval m) mod (pn P384) = 0 mod (pn P384)) in Hv. rewrite Vm' in Hv.
    apply Z.eqb_eq in Hv. revert Hv. change (fval sk) with (7 mod (pn P384)).
    assert (K : (7 mod (pn P384) + 0xd44dd9ee29e9ce1a28eb57093f06e8eaa5f0d486f4ba913278317474e636b7c8ff9db9be5839b208250d341a27ce2aab) mod (pn P384)
       =? 0 mod (pn P384) = false) by (vm_compute; reflexivity).
    intros Hv. rewrite K in Hv. discriminate. }
  pose proof (curve_group_laws (nist_curve_laws P384 p384_laws pick) (S fuel)) as GL.
  exists Q2, m, (elem_mul G Q2 (s_inv GL (scalar_add G sk m))).
  split; [discriminate|]. split; [exact E2|]. split; [exact N2|]. split; [exact Em|]. split; [exact Ht|].
  exact (mul_inv_cancel' GL Q2 _ Ht).
Qed.

(** C46: the base point is read from its encoding; one more than an x
    coordinate of the field is refused, as is an x coordinate without a
    point. *)
Example C46_case384 : forall pick fuel,
  let G := CSGroup (P384_SHA384 pick fuel) in
  let gx := I2OSP (Z.to_N (pgx P384)) 48 in
  deserialize_elem G (x03 :: gx) = Ok (base_elem G) /\
  deserialize_elem G (x02 :: gx) <> Ok (base_elem G) /\
  deserialize_elem G (x02 :: I2OSP (Z.to_N p) 48) = Err EDeserialization.
Proof.
  intros pick fuel G gx.
  destruct (C46_p384_elements pick fuel) as (_ & _ & _ & _ & Hu & Hs & Hc & Hn & Hser & Hg & _).
  assert (Hb : be_Z gx = pgx P384) by (vm_compute; reflexivity).
  assert (Hl : length gx = 48%nat) by apply I2OSP_length.
  split; [|split].
  - destruct (Hser _ _ _ Hg) as (xb & E & El & Ex). assert (Eb : xb = gx).
    { apply be_Z_inj; [congruence|]. rewrite Hb. exact Ex. }
    rewrite <- Eb. change (x03 :: xb) with ((if Z.odd (pgy P384) then x03 else x02) :: xb).
    change (serialize_elem G (base_elem G) = (if Z.odd (pgy P384) then x03 else x02) :: xb) in E.
    rewrite <- E. apply (ec_elem_roundtrip (nist_curve_laws P384 p384_laws pick)).
    exact (gen_neq P384 p384_laws).
  - intros E. destruct (Hs _ _ E) as (x & y & Ea & (_ & xb & _ & _ & K)).
    assert (Ey : y = pgy P384).
    { pose proof (eq_trans (eq_sym Ea) Hg) as Exy. apply (f_equal (option_map snd)) in Exy.
      cbn [option_map snd] in Exy. apply (f_equal (fun o => match o with Some z => z | None => 0 end)) in Exy. exact Exy. }
    subst y.
    assert (Hodd : Z.odd (pgy P384) = true) by (vm_compute; reflexivity).
    destruct K as [[Kb K]|[[Kb K]|[Kb|(yb & _ & _ & Kb)]]]; apply (f_equal (hd x00)) in Kb; cbn [hd] in Kb;
      try discriminate Kb; rewrite Hodd in K; discriminate K.
  - apply Hn. intros x y ((Hx & _) & xb & El & Ex & K).
    assert (Hpb : be_Z (I2OSP (Z.to_N p) 48) = p) by (vm_compute; reflexivity).
    set (pb := I2OSP (Z.to_N p) 48) in *. clearbody pb.
    destruct K as [[K _]|[[K _]|[K|(yb & _ & _ & K)]]]; try discriminate K.
    assert (K' : pb = xb) by (apply (f_equal (@tl _)) in K; exact K).
    rewrite K', Ex in Hpb. rewrite Hpb in Hx.
    destruct Hx as [_ Hx]. rewrite p384_p in Hx. exact (Z.lt_irrefl _ Hx).
Qed.
