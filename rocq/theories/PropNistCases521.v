(** * PropNistCases521: inputs of P521-SHA512 that meet the hypotheses of C46,
    C47 and C48.

    The points are found outside; Coq checks them against the RFC's
    definition, with [rfc_sswu_unique]. *)
(* Written by /verif/tools/gen_cases.py from PropNistCases.v. *)
From Verif Require Import NistCurve NistFacts NistSpec Nist521 NistProps NistCheck Sha2 EllipticCurveFacts SuiteRuns.
From Verif Require Import PropNist521 GroupFacts PropCorrectness PropGroups.
From Coq Require Import Znumtheory.
Open Scope Z_scope.

Local Notation p := (pp P521).

Definition expand521 (msg tag : bytes) (n : N) : bytes := expand_message_xmd (sha2 SHA512) 64 128 msg tag n.
Lemma expand521_eq msg tag : expand_message_xmd (digest (hash_of SHA512)) (output_size (hash_of SHA512))
  (block_size (hash_of SHA512)) msg tag (2 * pl P521) = expand521 msg tag 196.
Proof.
  unfold expand521. change (digest (hash_of SHA512)) with (sha2 SHA512).
  change (block_size (hash_of SHA512)) with 128%N. change (output_size (hash_of SHA512)) with 64%N.
  change (2 * pl P521)%N with 196%N. reflexivity.
Qed.
Lemma case_checked pick fuel msg tag c : tag <> [] -> hash_check P521 (expand521 msg tag 196) c = true ->
  let G := CurveGroup (NistCurve P521 pick) fuel in
  exists Q, hash_to_curve G (hash_of SHA512) [msg] [tag] = Ok Q /\ Q <> identity_elem G /\
  exists P0 P1, affine P521 P0 = Some (snd (fst (fst c)), snd (fst c)) /\
                affine P521 P1 = Some (snd (fst (snd c)), snd (snd c)) /\ Q = elem_add G P0 P1.
Proof.
  intros Ht Hc.
  exact (hash_checked' P521 p521_laws pick _ sha512_laws (p521_okm pick) fuel _ _ _ _ Ht (expand521_eq _ _) Hc).
Qed.

(** One input for each mode. *)
Definition case_input (mode : N) : bytes :=
  match mode with 0%N => str "input2" | 1%N => str "input1" | _ => str "input0" end.
Definition case_points (mode : N) : (Z * Z * Z * Z) * (Z * Z * Z * Z) :=
  match mode with
  | 0%N => ((0x21e08fbee4519cd1ba74354bd9302c97b47a41dc82f47a9ec3adb41ff1fd52e4e0f100fc95894221fbedabc1aeeab08afe99e8ff68d8b90b5a4f2192699865709c,
    0xf201f0b0344f7c88d551c524de1a2cda86abd5c45894d255b05c3005a73e85b633ab4191c7c8a0962cf33be54ec7f5cf80df85c2e03e90e3fb594ffd05b33c1caa,
    0xccbee906d53ca95595a35de9bd1585153e59689cd2bbf9d5b40e924f6b7f908c2585c27d93b0f8dbbfd018bbc5dbec55f7b880c031807bef86d0905adf37ffb418,
    0xd15cca85c8da31d8857b6d5f444ec8a10facd1d804bc6dd98bfb1671392dd2c10b2a72b1268e25ed9fa36f8af9cab3f4e2ebc32e7d8ebeca22f9a79b721a44021a),
   (0x17170ed9789cbfcd29674c374afe3f988d6d8c08b599451ec07fdec74848392905f73398d334c209de1e067ef00362a8b53b7fcb99671b8642219bd643020d874f1,
    0x11a6ed0d3583a525891c495b43fae84ac50d4f986233475ad5bea98accd24dfe048d95850754fda9b76c2bfdd5169b2b4fe2ba75350c5c9dd35adc303c5a8f5721d,
    0x199df60fe633f67505fb93c1e687406bae026bd54440ede42a3583d1407559459bff55d0df21678353826aa97f34716e01bb2dcda0768829bb9a996784562bd6a0f,
    0x1e754dd89e5a35240402dc61cd4cc61bfc56b9fa61ad34f99dce008830dcf9a0a9d38d8b81c78c7f8a8d51be300c2aeca1788c86468f1e38438a64034610447a797))
  | 1%N => ((0x10a85f2e7d39d6062883b942a44a06c8de1aeb61486d91437d497878eb742277da5c3e770fbeff6b3ae1ba861c0136d514170d9ed8918f5ed1ace1ef34654763f73,
    0x1af4c39b0280ab2d2d8c6a80b3c1fb3ede8ff38e37b3132cec4553d9abde09aa21f8b1494be93a939e85cac3e2206b1ec3fe3f7835d73b1b23a3ba5913b1a8470cf,
    0xa9b4902b78d2113f92a742016ec0390067924b5440df210570fee46470917c77fa9bcbd8ef8944226cac5a343eea3466b2f6b5b5a5aa02cc5e5c94eb37a0375269,
    0x16093e6909adc161101be6fb5ec2402c183f40759eb234667b5859da2f20a4bfef91d440fb653706bee1faf94f4bcbdc887acf785a098c4f4df837615afa83cc39),
   (0x1efba062e74540792e568c83dc99f21d96eb09b42efc346adc74ead773dac09c0085d89a324c3c94c1e74f928b58b592b06bdd03c1945b6c6aff7780b51c2e55dab,
    0x880552c74460c4063caa41d85e1f2449495ca27e72aa17807b716dcc9f7aea13bc5a2a4b5b59be8a27d3617ae545b3535e01f87f4c84a76fd55867e952e73b5103,
    0x9222b503daf9e3cd400d2152acd3b26e5c44e27cbeb1ccdcb8f5fe301c6b49e8682c2603d6c4192e810a54ed70ebc57f452ea8d31cf3d88f3f19653d372cfab093,
    0x714b3271f995695dd7132570e3334b974fbd4ff7803a0fb5bbfe1a31b010f4a9e08804f12f2c12e265fc839282ef7d20fb029edb0469ef2f6fa636bf625c5f1d15))
  | _ => ((0x3f8b8bad2a93d0c071bb1027f47b9db58df3a96efebf96e809ea0ce882cda6f0fdc7c90adb44ceb53e4da69ac9039dd5823d24151c93853e457fea001c546d8d27,
    0x101bf4d51f6171ea386b285b0239e49bd0f88dc4e7828b6052e6d069ee75c046cd05a7e61daa80b768df4a5f986f5bbac84ccc93a47464164eba6a8011610999042,
    0x1b766e5b3e766735750ebabab9a4ba347a7970e095d25cef5dccf50c82d0c90130d550ac8f80cad98fe8a98660ba20b36ea0b7c02dd34c7bb35fd730c5e5fa8f0b6,
    0x155581f049efacf9185487b15d7e84dd330762e2652ed64e34438690f57908b4cacdaaf631825e9fbde7382fad308a98826cfc94e18fc3c7179c6979f98f677088b),
   (0x18881ee07383da8647f2fd46aa8630080966afabe5268cd60cee1cf74776ae464e322faa6e4a5f8512ad48e450f6c2eae822194a1f7b62ca06e48608253a7781ded,
    0x37fd028db65c7734fc0dd041ab437939de1e0593d52ed458a23488d3957cd9dc28ddf92b6a468006c8f35b4ba2208b872639642bab4a09c744d2c61df4366f8426,
    0x1c42474344886d2ba7dd3b30d531047b4c9dc2489333555234c25d7bd012c1a55e0cd38a0ae775827047e0dbc6b9f9bec4413b974fc483a8ea4d6630ff9a2f96651,
    0x152739bd17347580564b1df9ba3932c41e532ea78293558b77cab301665933e9988f627b60519fd1aee46e9065a04d024546975eaad8f4c27a284f08c70f2d24e6b))
  end.
Definition tag521 (mode : N) : bytes := str "HashToGroup-OPRFV1-" ++ I2OSP mode 1 ++ str "-P521-SHA512".

Lemma case_hash0 : hash_check P521 (expand521 (case_input 0) (tag521 0) 196) (case_points 0) = true.
Proof. vm_compute. reflexivity. Qed.
Lemma case_hash1 : hash_check P521 (expand521 (case_input 1) (tag521 1) 196) (case_points 1) = true.
Proof. vm_compute. reflexivity. Qed.
Lemma case_hash2 : hash_check P521 (expand521 (case_input 2) (tag521 2) 196) (case_points 2) = true.
Proof. vm_compute. reflexivity. Qed.

Lemma tag521_group_tag pick fuel mode : group_tag (P521_SHA512 pick fuel) mode = tag521 mode.
Proof. reflexivity. Qed.
Lemma tag521_neq mode : tag521 mode <> []. Proof. discriminate. Qed.

Lemma scalar_tag521 pick fuel : scalar_tag (P521_SHA512 pick fuel) 2
  = str "HashToScalar-OPRFV1-" ++ I2OSP 2 1 ++ str "-P521-SHA512".
Proof. reflexivity. Qed.

(** A generator of random bytes with which sampling ends. *)
Definition OneRng : Rng := {| rng_state := unit; fill_bytes := fun st n => (repeat x01 n, st) |}.
Lemma one_ends pick fuel : sampling_ends (CSGroup (P521_SHA512 pick (S fuel))) OneRng tt.
Proof.
  destruct (C38_curve_random (NistCurve P521 pick) (nist_curve_laws P521 p521_laws pick) (S fuel) OneRng tt)
    as [H _].
  destruct (H 0%nat) as (s & E & _); [lia|intros j Hj; lia| |].
  - assert (K : ((0 <? be_Z (repeat x01 66)) && (be_Z (repeat x01 66) <? (pn P521)))%bool = true) by (vm_compute; reflexivity).
    apply andb_true_iff in K. rewrite !Z.ltb_lt in K. exact K.
  - unfold sampling_ends.
    change (random_scalar (CSGroup (P521_SHA512 pick (S fuel))) OneRng tt)
      with (random_scalar (CurveGroup (NistCurve P521 pick) (S fuel)) OneRng tt).
    rewrite E. discriminate.
Qed.

(** C47: the hash of an input, from the two points of the RFC. *)
Example C47_case521 : forall pick fuel, let G := CSGroup (P521_SHA512 pick fuel) in
  exists Q, hash_to_curve G (hash_of SHA512) [str "input2"] [tag521 0] = Ok Q /\ Q <> identity_elem G /\
  exists P0 P1,
    affine P521 P0 = Some (0xccbee906d53ca95595a35de9bd1585153e59689cd2bbf9d5b40e924f6b7f908c2585c27d93b0f8dbbfd018bbc5dbec55f7b880c031807bef86d0905adf37ffb418,
                           0xd15cca85c8da31d8857b6d5f444ec8a10facd1d804bc6dd98bfb1671392dd2c10b2a72b1268e25ed9fa36f8af9cab3f4e2ebc32e7d8ebeca22f9a79b721a44021a) /\
    affine P521 P1 = Some (0x199df60fe633f67505fb93c1e687406bae026bd54440ede42a3583d1407559459bff55d0df21678353826aa97f34716e01bb2dcda0768829bb9a996784562bd6a0f,
                           0x1e754dd89e5a35240402dc61cd4cc61bfc56b9fa61ad34f99dce008830dcf9a0a9d38d8b81c78c7f8a8d51be300c2aeca1788c86468f1e38438a64034610447a797) /\
    Q = elem_add G P0 P1.
Proof. intros pick fuel G. exact (case_checked pick fuel _ _ _ (tag521_neq 0) case_hash0). Qed.

Lemma case_info : be_Z (expand_message_xmd (sha2 SHA512) 64 128 (str "Info" ++ lv (str "info")) (str "HashToScalar-OPRFV1-" ++ I2OSP 2 1 ++ str "-P521-SHA512") 98)
    mod (pn P521) = 0x7db9c67345f956427bda4024fd9dd54f19dcc569e86f0c27b9e23e727da899509d00f83fdfb4f314fc9bb71e0e8c7e08f2dd52f6e9dc6cacf24e04691125c96eac.
Proof. vm_compute. reflexivity. Qed.

(** C48: the hypotheses of each of the three protocols are met, for the
    private key 7 and draws that start with acceptable bytes. *)
Example C48_case521 : forall pick fuel,
  let CS := P521_SHA512 pick (S fuel) in
  let G := CSGroup CS in
  let sk : scalar CS := of_Z (pn P521) 7 in
  (exists Q, (len (case_input 0) <= 65535)%N /\
     hash_to_curve G (CSHash CS) [case_input 0] [group_tag CS 0] = Ok Q /\ Q <> identity_elem G) /\
  (exists Q, (len (case_input 1) <= 65535)%N /\
     hash_to_curve G (CSHash CS) [case_input 1] [group_tag CS 1] = Ok Q /\ Q <> identity_elem G) /\
  (exists Q m E, (len (case_input 2) <= 65535)%N /\
     hash_to_curve G (CSHash CS) [case_input 2] [group_tag CS 2] = Ok Q /\ Q <> identity_elem G /\
     hash_to_scalar G (CSHash CS) [str "Info" ++ lv (str "info")] [scalar_tag CS 2] = Ok m /\
     scalar_add G sk m <> zero_scalar G /\ elem_mul G E (scalar_add G sk m) = Q) /\
  sampling_ends G OneRng tt.
Proof.
  intros pick fuel CS G sk.
  assert (H0 := case_checked pick (S fuel) _ _ _ (tag521_neq 0) case_hash0).
  assert (H1 := case_checked pick (S fuel) _ _ _ (tag521_neq 1) case_hash1).
  assert (H2 := case_checked pick (S fuel) _ _ _ (tag521_neq 2) case_hash2).
  cbv zeta in H0, H1, H2.
  destruct H0 as (Q0 & E0 & N0 & _). destruct H1 as (Q1 & E1 & N1 & _). destruct H2 as (Q2 & E2 & N2 & _).
  split; [exists Q0; split; [discriminate|]; split; [exact E0|exact N0]|].
  split; [exists Q1; split; [discriminate|]; split; [exact E1|exact N1]|].
  split; [|exact (one_ends pick fuel)].
  destruct (C47_p521_hash pick (S fuel) [str "Info" ++ lv (str "info")] [scalar_tag CS 2]) as (_ & _ & m & Em & Vm).
  { discriminate. }
  cbn [concat] in Vm. rewrite !app_nil_r in Vm. unfold CS in Vm.
  assert (Vm' : fval m = 0x7db9c67345f956427bda4024fd9dd54f19dcc569e86f0c27b9e23e727da899509d00f83fdfb4f314fc9bb71e0e8c7e08f2dd52f6e9dc6cacf24e04691125c96eac)
    by (rewrite Vm, scalar_tag521; exact case_info).
  assert (Ht : scalar_add G sk m <> zero_scalar G).
  { intros Hz. pose proof (f_equal fval Hz) as Hv.
    change ((fval sk + fval m) mod (pn P521) = 0 mod (pn P521)) in Hv. rewrite Vm' in Hv.
    apply Z.eqb_eq in Hv. revert Hv. change (fval sk) with (7 mod (pn P521)).
    assert (K : (7 mod (pn P521) + 0x7db9c67345f956427bda4024fd9dd54f19dcc569e86f0c27b9e23e727da899509d00f83fdfb4f314fc9bb71e0e8c7e08f2dd52f6e9dc6cacf24e04691125c96eac) mod (pn P521)
       =? 0 mod (pn P521) = false) by (vm_compute; reflexivity).
    intros Hv. rewrite K in Hv. discriminate. }
  pose proof (curve_group_laws (nist_curve_laws P521 p521_laws pick) (S fuel)) as GL.
  exists Q2, m, (elem_mul G Q2 (s_inv GL (scalar_add G sk m))).
  split; [discriminate|]. split; [exact E2|]. split; [exact N2|]. split; [exact Em|]. split; [exact Ht|].
  exact (mul_inv_cancel' GL Q2 _ Ht).
Qed.

(** C46: the base point is read from its encoding; one more than an x
    coordinate of the field is refused, as is an x coordinate without a
    point. *)
Example C46_case521 : forall pick fuel,
  let G := CSGroup (P521_SHA512 pick fuel) in
  let gx := I2OSP (Z.to_N (pgx P521)) 66 in
  deserialize_elem G (x02 :: gx) = Ok (base_elem G) /\
  deserialize_elem G (x03 :: gx) <> Ok (base_elem G) /\
  deserialize_elem G (x02 :: I2OSP (Z.to_N p) 66) = Err EDeserialization.
Proof.
  intros pick fuel G gx.
  destruct (C46_p521_elements pick fuel) as (_ & _ & _ & _ & Hu & Hs & Hc & Hn & Hser & Hg & _).
  assert (Hb : be_Z gx = pgx P521) by (vm_compute; reflexivity).
  assert (Hl : length gx = 66%nat) by apply I2OSP_length.
  split; [|split].
  - destruct (Hser _ _ _ Hg) as (xb & E & El & Ex). assert (Eb : xb = gx).
    { apply be_Z_inj; [congruence|]. rewrite Hb. exact Ex. }
    rewrite <- Eb. change (x02 :: xb) with ((if Z.odd (pgy P521) then x03 else x02) :: xb).
    change (serialize_elem G (base_elem G) = (if Z.odd (pgy P521) then x03 else x02) :: xb) in E.
    rewrite <- E. apply (ec_elem_roundtrip (nist_curve_laws P521 p521_laws pick)).
    exact (gen_neq P521 p521_laws).
  - intros E. destruct (Hs _ _ E) as (x & y & Ea & (_ & xb & _ & _ & K)).
    assert (Ey : y = pgy P521).
    { pose proof (eq_trans (eq_sym Ea) Hg) as Exy. apply (f_equal (option_map snd)) in Exy.
      cbn [option_map snd] in Exy. apply (f_equal (fun o => match o with Some z => z | None => 0 end)) in Exy. exact Exy. }
    subst y.
    assert (Hodd : Z.odd (pgy P521) = false) by (vm_compute; reflexivity).
    destruct K as [[Kb K]|[[Kb K]|[Kb|(yb & _ & _ & Kb)]]]; apply (f_equal (hd x00)) in Kb; cbn [hd] in Kb;
      try discriminate Kb; rewrite Hodd in K; discriminate K.
  - apply Hn. intros x y ((Hx & _) & xb & El & Ex & K).
    assert (Hpb : be_Z (I2OSP (Z.to_N p) 66) = p) by (vm_compute; reflexivity).
    set (pb := I2OSP (Z.to_N p) 66) in *. clearbody pb.
    destruct K as [[K _]|[[K _]|[K|(yb & _ & _ & K)]]]; try discriminate K.
    assert (K' : pb = xb) by (apply (f_equal (@tl _)) in K; exact K).
    rewrite K', Ex in Hpb. rewrite Hpb in Hx.
    destruct Hx as [_ Hx]. rewrite p521_p in Hx. exact (Z.lt_irrefl _ Hx).
Qed.
