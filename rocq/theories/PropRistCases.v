(** * PropRistCases: inputs of ristretto255-SHA512 that meet the hypotheses of
    C49, C50 and C51.

    The points are found outside (tools/gen_ristcases.py); Coq checks them
    against [RistSpec]. *)
From Verif Require Import Rist255 RistFacts RistSpec RistrettoFacts RistProps RistCheck Rist25519 Sha2 SuiteRuns PropRist.
From Verif Require Import GroupFacts PropCorrectness PropGroups Primes.
From Coq Require Import Znumtheory.
Open Scope Z_scope.

Local Notation p := (rp R25519).

Definition expand512 (msg tag : bytes) : bytes := expand_message_xmd (sha2 SHA512) 64 128 msg tag 64.
Definition case_t : Type := point_t * point_t * (Z * Z) * (Z * Z * Z).
Definition case_check (msg tag : bytes) (c : case_t) : bool :=
  let '(c0, c1, e3, e) := c in uniform_check R25519 (expand512 msg tag) c0 c1 e3 e.

(** One input for each mode: both halves square, one of them, none. *)
Definition case_input (mode : N) : bytes :=
  match mode with 0%N => str "input1" | 1%N => str "input4" | _ => str "input5" end.
Definition case_points0 : case_t :=
  ((0x39a42c82e431cd0738f67a0516eeb7379af875c7a4a1f73dd6de50f669842e2,
         0x39a42c82e431cd0738f67a0516eeb7379af875c7a4a1f73dd6de50f669842e2,
         0x34d603469d717675e391b02bc3792eac8977cc9ee035fb9b8d5d45f71297f884,
         0x3e1946d599897b472e1a954691003787d6d801ad3217ba5610220258af94e5a3, true),
    (0x64fbd52c3b11b2cd00ca7a66466b4a40d2008c95c229cada1299fb41ff9937dc,
         0x64fbd52c3b11b2cd00ca7a66466b4a40d2008c95c229cada1299fb41ff9937dc,
         0xd9ae8e74211bf57b30a23ba386888bd9f6d552e4f253766ab4854d6855079cf,
         0x4767bd98aa613417606985c932e270979fdc77083f7463a3d6ad0516f75483f1, true),
    (0x6f4e1f3d3c3eb2b49c90719c9d2e484cb49b64fe658c7c11316a707b520b9ba9,
     0x6bb937de3e04b0bf52324e54ef171178c9d301c193b028ede1b87cc4a5af228f),
    (0x40ad03c21992dc059cc5abda060812d59bbe6d866dac6e7ef0d7a2e7f076e4ce, 0x10b1e0c2c3c14d4b636f8e6362d1b7b34b649b019a7383eece958f84adf46444,
     0x1446c821c1fb4f40adcdb1ab10e8ee87362cfe3e6c4fd7121e47833b5a50dd5e)).
Definition case_points1 : case_t :=
  ((0x3df6e245b68ef1ccab30632b103693d81d548417006f0d3b06aab697a34a51c,
         0x3df6e245b68ef1ccab30632b103693d81d548417006f0d3b06aab697a34a51c,
         0x67f6e4413826215bd8ef7ad8d11e1fdeddb4ae98064ae8d45931c7544b26c73f,
         0x7fce82e71355c8ebff7ff403018fc4942bbe685a7e8f535a33ac7b37455d31f8, true),
    (0x6396afccae24083319669a2fd72c912ca2fa83bed6fac6bed44247512e57cc08,
         0x96d5f31de969dd252a38072073c158f7abf181a7aa51b4e638b989a34048c2d,
         0x5ba8599f5cbc2eb23e76e5f920179d201e36ffff0e863e0a21fec00113945e4f,
         0x3aa4f7d4c9be8bf11b5566b63aabfe355cc9d0ac532e41390156daf7b2b97773, false),
    (0x23cf9af0a273b141876aac8ea07b52a512eaffd1d4f24b6ac9c64c3423f4d377,
     0x576d1ee537f483cd057eb14a030ad0c49b92534a052959bfa15bb46737d0a066),
    (0x695974e5087a07baf4a1ef60ca80599908a3058578cbb8db79c3d20e70469882, 0x264ee130dc82faa9582dad40b203d431aeef4f4d2cba65e025ba38a58bd18526,
     0x7f55b0d3215f4dd862d067bb9484fb5d5990ee3fad35cc3604661d182dade459)).
Definition case_points2 : case_t :=
  ((0x5785ec341a5d6abc139f530cdd0d9246cdb001c507b2abd03b6765831f810686,
         0x22af80706147d92c7e659014fccca2c4b8b48eaf52bf3d68e52c8b124cc5095d,
         0x4af4be5e62930aae3fd2b01f19fc28c2a33d6214dc9f7e511d8d2ebdbe7862f,
         0x1fb59affdb50e563d390906e304a3daca8428f0e9b54d5bfbbab3cf2b947a8a2, false),
    (0x2c57795f0358f17c17a826b570416ce457f5d0d932d304d5794b05e7ece3c6c6,
         0x58d9fb9e048e48cbc3f8ca1dd0de3eb854c35910d2e8128780cea35c91fbf4e7,
         0x5e9e4a0c0fbb4d6830862322aea7c3c6a6a341e055cf02cf8ce927608c7e1d12,
         0x3efc6f7772d91534fd73e21ac6f1cc5845de40ffb6b16c39bf996ebfb24b3318, false),
    (0x1ff49ab99f6cb3d506f5ad52cbf52cf15f7c6d2b1af212bcf25ab6b0c21299d,
     0x5330f3f6a80ea6a75e767f4a722c6968f3eb4ec54d76a304aa6583607c9e2905),
    (0x21d646fb4be12c5a24a5ad7f1c2a6ad9c49dcb5b9828d4cdddbe979d7b1c64e, 0xef34bff691cc75cd8a61df3e2c876d45aae72ae1be0fcab018da254c3383d6,
     0x3ec1133bd2a476b83b0effa2a37572ae5bc2bfe3919e569d4302c3bb6ea010fe)).
Definition tag_rist (mode : N) : bytes := str "HashToGroup-OPRFV1-" ++ I2OSP mode 1 ++ str "-ristretto255-SHA512".

Lemma case_hash0 : case_check (case_input 0) (tag_rist 0) case_points0 = true.
Proof. vm_compute. reflexivity. Qed.
Lemma case_hash1 : case_check (case_input 1) (tag_rist 1) case_points1 = true.
Proof. vm_compute. reflexivity. Qed.
Lemma case_hash2 : case_check (case_input 2) (tag_rist 2) case_points2 = true.
Proof. vm_compute. reflexivity. Qed.

Lemma case_checked fuel msg tag c : tag <> [] -> case_check msg tag c = true ->
  let G := CSGroup (Ristretto255_SHA512 fuel) in
  exists Q, hash_to_curve G (hash_of SHA512) [msg] [tag] = Ok Q /\ Q <> identity_elem G /\
    point_x Q = of_Z p (snd (fst (snd c))) /\ point_y Q = of_Z p (snd (snd c)) /\
    rfc_decodes p (cD R25519) (of_Z p (fst (fst (snd c)))) (point_x Q) (point_y Q).
Proof.
  destruct c as [[[c0 c1] e3] [[s x] y]]. intros Ht Hc G. unfold case_check in Hc. cbn [fst snd].
  destruct (uniform_checked R25519 r25519_laws _ _ _ _ _ _ _ Hc) as (e & E & Hn & Ex & Ey & Hd).
  exists e. split; [|split; [exact Hn|split; [exact Ex|split; [exact Ey|]]]].
  - destruct (C42_ristretto_hash Dalek25519 dalek25519_laws (hash_of SHA512) sha512_laws fuel [msg] [tag]) as [K _].
    cbn [concat] in K. rewrite !app_nil_r in K. destruct (K Ht) as [Kc _]. rewrite <- E. exact Kc.
  - unfold point_x, point_y. rewrite Ex, Ey. exact Hd.
Qed.

Lemma tag_rist_group_tag fuel mode : group_tag (Ristretto255_SHA512 fuel) mode = tag_rist mode.
Proof. reflexivity. Qed.
Lemma tag_rist_neq mode : tag_rist mode <> []. Proof. discriminate. Qed.
Lemma scalar_tag_rist fuel : scalar_tag (Ristretto255_SHA512 fuel) 2
  = str "HashToScalar-OPRFV1-" ++ I2OSP 2 1 ++ str "-ristretto255-SHA512".
Proof. reflexivity. Qed.

(** A generator of random bytes with which sampling ends. *)
Definition FiveRng : Rng := {| rng_state := unit; fill_bytes := fun st n => (repeat x05 n, st) |}.
Lemma five_value : (le_Z (repeat x05 64) mod ell =? 0) = false.
Proof. vm_compute. reflexivity. Qed.
Lemma five_ends fuel : sampling_ends (CSGroup (Ristretto255_SHA512 (S fuel))) FiveRng tt.
Proof.
  destruct (C38_ristretto_random Dalek25519 (S fuel) FiveRng tt) as [H _].
  destruct (H 0%nat) as (s & E & _); [lia|intros j Hj; lia| |].
  - pose proof five_value as K. apply Z.eqb_neq in K. exact K.
  - unfold sampling_ends.
    change (random_scalar (CSGroup (Ristretto255_SHA512 (S fuel))) FiveRng tt)
      with (random_scalar (RistrettoGroup Dalek25519 (S fuel)) FiveRng tt).
    rewrite E. discriminate.
Qed.

(** C50: the element an input hashes to, by the number that encodes it. *)
Example C50_case : forall fuel, let G := CSGroup (Ristretto255_SHA512 fuel) in
  exists Q, hash_to_curve G (hash_of SHA512) [str "input5"] [tag_rist 2] = Ok Q /\ Q <> identity_elem G /\
    serialize_elem G Q
    = le_bytes 0x21d646fb4be12c5a24a5ad7f1c2a6ad9c49dcb5b9828d4cdddbe979d7b1c64e 32.
Proof.
  intros fuel G. destruct (case_checked fuel _ _ _ (tag_rist_neq 2) case_hash2) as (Q & E & Hn & _ & _ & Hd).
  exists Q. split; [exact E|]. split; [exact Hn|].
  change 0x21d646fb4be12c5a24a5ad7f1c2a6ad9c49dcb5b9828d4cdddbe979d7b1c64e with (fst (fst (snd case_points2))).
  assert (Hr : 0 <= fst (fst (snd case_points2)) < p) by (split; [discriminate|reflexivity]).
  revert Hr Hd. generalize (fst (fst (snd case_points2))). intros s Hr Hd.
  apply le_Z_inj. { rewrite le_bytes_length. exact (RistProps.compress_length R25519 r25519_laws Q). }
  rewrite le_Z_bytes by (pose proof r_fits; pose proof ell_32; change (256 ^ Z.of_nat 32) with (2 * 2 ^ 255); lia).
  etransitivity; [exact (compress_value R25519 r25519_laws Q)|].
  pose proof (decodes_unique R25519 r25519_laws _ _ _ _ (elem_decodes R25519 r25519_laws Q) Hd) as ->.
  cbn [of_Z fval]. apply Z.mod_small. exact Hr.
Qed.

Lemma case_info : le_Z (expand_message_xmd (sha2 SHA512) 64 128 (str "Info" ++ lv (str "info"))
      (str "HashToScalar-OPRFV1-" ++ I2OSP 2 1 ++ str "-ristretto255-SHA512") 64)
    mod ell = 0xb246b60490f0cfa27b5862c6e840f328effcfcead8ac32f83f94d3b3ec39598.
Proof. vm_compute. reflexivity. Qed.

(** C51: the hypotheses of each of the three protocols are met, for the
    private key 7. *)
Example C51_case : forall fuel,
  let CS := Ristretto255_SHA512 (S fuel) in
  let G := CSGroup CS in
  let sk : scalar CS := of_Z ell 7 in
  (exists Q, (len (case_input 0) <= 65535)%N /\
     hash_to_curve G (CSHash CS) [case_input 0] [group_tag CS 0] = Ok Q /\ Q <> identity_elem G) /\
  (exists Q, (len (case_input 1) <= 65535)%N /\
     hash_to_curve G (CSHash CS) [case_input 1] [group_tag CS 1] = Ok Q /\ Q <> identity_elem G) /\
  (exists Q m E, (len (case_input 2) <= 65535)%N /\
     hash_to_curve G (CSHash CS) [case_input 2] [group_tag CS 2] = Ok Q /\ Q <> identity_elem G /\
     hash_to_scalar G (CSHash CS) [str "Info" ++ lv (str "info")] [scalar_tag CS 2] = Ok m /\
     scalar_add G sk m <> zero_scalar G /\ elem_mul G E (scalar_add G sk m) = Q) /\
  sampling_ends G FiveRng tt.
Proof.
  intros fuel CS G sk.
  assert (H0 := case_checked (S fuel) _ _ _ (tag_rist_neq 0) case_hash0).
  assert (H1 := case_checked (S fuel) _ _ _ (tag_rist_neq 1) case_hash1).
  assert (H2 := case_checked (S fuel) _ _ _ (tag_rist_neq 2) case_hash2).
  cbv zeta in H0, H1, H2.
  destruct H0 as (Q0 & E0 & N0 & _). destruct H1 as (Q1 & E1 & N1 & _). destruct H2 as (Q2 & E2 & N2 & _).
  split; [exists Q0; split; [discriminate|]; split; [exact E0|exact N0]|].
  split; [exists Q1; split; [discriminate|]; split; [exact E1|exact N1]|].
  split; [|exact (five_ends fuel)].
  destruct (C50_ristretto_hash (S fuel) [str "Info" ++ lv (str "info")] [scalar_tag CS 2]) as (_ & _ & _ & _ & _ & m & Em & Vm).
  { discriminate. }
  cbn [concat] in Vm. rewrite !app_nil_r in Vm. unfold CS in Vm.
  assert (Vm' : fval m = 0xb246b60490f0cfa27b5862c6e840f328effcfcead8ac32f83f94d3b3ec39598)
    by (rewrite Vm, scalar_tag_rist; exact case_info).
  assert (Ht : scalar_add G sk m <> zero_scalar G).
  { intros Hz. pose proof (f_equal fval Hz) as Hv.
    change ((fval sk + fval m) mod ell = 0 mod ell) in Hv. rewrite Vm' in Hv.
    apply Z.eqb_eq in Hv. revert Hv. change (fval sk) with (7 mod ell).
    assert (K : (7 mod ell + 0xb246b60490f0cfa27b5862c6e840f328effcfcead8ac32f83f94d3b3ec39598) mod ell
       =? 0 mod ell = false) by (vm_compute; reflexivity).
    intros Hv. rewrite K in Hv. discriminate. }
  pose proof (ristretto_group_laws dalek25519_laws (S fuel)) as GL.
  exists Q2, m, (elem_mul G Q2 (s_inv GL (scalar_add G sk m))).
  split; [discriminate|]. split; [exact E2|]. split; [exact N2|]. split; [exact Em|]. split; [exact Ht|].
  exact (mul_inv_cancel' GL Q2 _ Ht).
Qed.

(** C49: RFC 9496, appendix A.1: the encoding of the generator; four strings
    that are refused: the identity, the field's order, a negative number, and
    a number for which there is no point. *)
Definition base_s : Z := 0x762d8de04559a6b68ddd82a56a0be3585f5100c561a984a8714ebc6a0aaef2e2.
Definition base_x : Z := 0x1063e2cc8cfe80c3dd5bff856803537a40971ffaa8a67c6c2f4183e0918de5d2.
Definition base_y : Z := 0x159a6849e44c3c7f061b3d570fc4ed5b5d14c8ba4253df49cc7edf80f533ad9b.
Lemma base_decodes : decode_check R25519 (of_Z p base_s) (of_Z p base_x) (of_Z p base_y) = true.
Proof. vm_compute. reflexivity. Qed.
Lemma base_equals : equals R25519 (of_Z p (rbx R25519)) (of_Z p (rby R25519)) (of_Z p base_x) (of_Z p base_y) = true.
Proof. vm_compute. reflexivity. Qed.
Definition base_bytes : bytes :=
  [xe2; xf2; xae; x0a; x6a; xbc; x4e; x71; xa8; x84; xa9; x61; xc5; x00; x51; x5f;
   x58; xe3; x0b; x6a; xa5; x82; xdd; x8d; xb6; xa6; x59; x45; xe0; x8d; x2d; x76].
Lemma base_bytes_value : le_Z base_bytes = base_s.
Proof. vm_compute. reflexivity. Qed.
Lemma eight_nonsquare : nonsquare_check R25519 (of_Z p 8)
  (of_Z p 0x17a17a17a17a17a17a17a17a17a17a17a17a17a17a17a17a17a17a17a17a179d)
  (of_Z p 0x6d60e6d40c9e990ab27966fd6d35558e408c665d08b81210ce3fbbdf33c42714) = true.
Proof. vm_compute. reflexivity. Qed.

Example C49_case : forall fuel,
  let G := CSGroup (Ristretto255_SHA512 fuel) in
  deserialize_elem G base_bytes = Ok (base_elem G) /\
  deserialize_elem G (repeat x00 32) = Err EDeserialization /\
  deserialize_elem G (le_bytes p 32) = Err EDeserialization /\
  deserialize_elem G (x01 :: repeat x00 31) = Err EDeserialization /\
  deserialize_elem G (x08 :: repeat x00 31) = Err EDeserialization.
Proof.
  intros fuel G.
  assert (Hbad := read_error R25519 r25519_laws).
  split; [|split; [|split; [|split]]].
  - destruct (read_checked R25519 r25519_laws base_bytes base_s base_x base_y eq_refl base_bytes_value eq_refl base_decodes)
      as (e & E & Ex & Ey).
    refine (eq_trans E (f_equal (@Ok Error _) _)).
    apply (same_iff R25519 r25519_laws).
    pose proof base_equals as K. apply orb_true_iff in K. rewrite !feqb_spec in K.
    apply (same_trans R25519 r25519_laws (of_Z p (rbx R25519)) (of_Z p (rby R25519))).
    + rewrite Ex, Ey. exact K.
    + exact (base_same R25519 r25519_laws).
    + pose proof r_base_on as B. apply feqb_spec in B. exact B.
  - apply Hbad. intros x y (_ & [H _] & _). revert H.
    assert (K : le_Z (repeat x00 32) = 0) by (vm_compute; reflexivity). rewrite K. apply Z.lt_irrefl.
  - apply Hbad. intros x y (_ & [_ H] & _). revert H.
    assert (K : le_Z (le_bytes p 32) = p) by (vm_compute; reflexivity). rewrite K. apply Z.lt_irrefl.
  - apply Hbad. intros x y (_ & _ & (H & _)). revert H.
    assert (K : le_Z (x01 :: repeat x00 31) = 1) by (vm_compute; reflexivity). rewrite K. unfold rfc_nonneg.
    assert (K' : Z.odd (fval (of_Z p 1)) = true) by (vm_compute; reflexivity). rewrite K'. discriminate.
  - apply Hbad. intros x y (_ & _ & H). revert H.
    assert (K : le_Z (x08 :: repeat x00 31) = 8) by (vm_compute; reflexivity). rewrite K.
    exact (nonsquare_checked R25519 r25519_laws _ _ _ eight_nonsquare x y).
Qed.
