(** * CommonFacts: the functions of common.rs compute what RFC 9497 says. *)
From Verif Require Export Common Spec BytesFacts GroupFacts.
Open Scope N_scope.

(** The mode identifier of RFC 9497 for each value of the crate's enum. *)
Definition mode_id (m : Mode) : N :=
  match m with Oprf => modeOPRF | Voprf => modeVOPRF | Poprf => modePOPRF end.

Lemma mode_to_u8_I2OSP m : [mode_to_u8 m] = I2OSP (mode_id m) 1.
Proof. destruct m; reflexivity. Qed.

Lemma bstr_str s : bstr s = str s.
Proof. reflexivity. Qed.

Lemma chain_update_multi_concat h ds : chain_update_multi h ds = h ++ concat ds.
Proof.
  unfold chain_update_multi. revert h. induction ds; intros; simpl.
  - now rewrite app_nil_r.
  - rewrite IHds. unfold chain_update. now rewrite <- app_assoc.
Qed.

Section CommonFacts.
Context {CS : CipherSuite} (L : SuiteLaws CS).
Local Notation G := (CSGroup CS).
Local Notation H := (CSHash CS).
Local Notation GL := (group_laws L).
Local Notation "P [+] Q" := (elem_add G P Q) (at level 50, left associativity).
Local Notation "k [*] P" := (elem_mul G P k) (at level 40).
Add Field scalar_field_inst : (scalar_field G GL).

Definition the_dst (label : bytes) (mode : Mode) : Dst :=
  mkDst (label ++ STR_OPRF ++ [mode_to_u8 mode] ++ bstr "-") (ID CS).

Lemma dst_new_ok label mode : len label <= 13 -> dst_new CS label mode = Ok (the_dst label mode).
Proof.
  intros Hl. unfold dst_new. pose proof (id_bound _ L) as Hid.
  destruct (N.leb_spec (len (label ++ STR_OPRF ++ [mode_to_u8 mode] ++ bstr "-") + len (ID CS)) u16_max) as [Hle|Hgt].
  - reflexivity.
  - exfalso. unfold u16_max in Hgt. rewrite !len_app in Hgt.
    change (len STR_OPRF) with 7 in Hgt. change (len [mode_to_u8 mode]) with 1 in Hgt.
    change (len (bstr "-")) with 1 in Hgt. lia.
Qed.

Lemma concat_dst label mode :
  concat (as_dst (the_dst label mode)) = label ++ contextString (CS := CS) (mode_id mode).
Proof.
  unfold as_dst, the_dst, contextString. simpl concat. rewrite app_nil_r.
  rewrite <- mode_to_u8_I2OSP, <- !app_assoc. reflexivity.
Qed.

Lemma dst_nonempty label mode : concat (as_dst (the_dst label mode)) <> [].
Proof.
  rewrite concat_dst. intros E. apply app_eq_nil in E as [_ E].
  apply app_eq_nil in E as [E _]. discriminate.
Qed.

Lemma h2s_ok msgs mode :
  hash_to_scalar G H msgs (as_dst (the_dst STR_HASH_TO_SCALAR mode))
  = Ok (H2S L (mode_id mode) (concat msgs)).
Proof.
  rewrite (hash_to_scalar_spec _ L) by apply dst_nonempty.
  f_equal. unfold H2S. f_equal. apply (concat_dst STR_HASH_TO_SCALAR mode).
Qed.

Lemma hash_to_group_ok input mode :
  hash_to_group CS input mode = Ok (H2G L (mode_id mode) input).
Proof.
  unfold hash_to_group. rewrite dst_new_ok by reflexivity || (vm_compute; discriminate).
  cbn [bind]. rewrite (hash_to_curve_spec _ L) by apply dst_nonempty. cbn [map_err].
  f_equal. unfold H2G. f_equal; [apply app_nil_r|].
  apply (concat_dst STR_HASH_TO_GROUP mode).
Qed.

Lemma deterministic_blind_unchecked_ok input blind mode :
  deterministic_blind_unchecked CS input blind mode = Ok (blind [*] H2G L (mode_id mode) input).
Proof. unfold deterministic_blind_unchecked. now rewrite hash_to_group_ok. Qed.

(** ** Key derivation *)

Lemma derive_key_loop_spec seed info mode counters :
  derive_key_loop CS seed (I2OSP (len info) 2) info (the_dst STR_DERIVE_KEYPAIR mode) counters
  = match find (fun c => negb (is_zero_scalar G (key_candidate L (mode_id mode) seed info c))) counters with
    | Some c => Ok (key_candidate L (mode_id mode) seed info c)
    | None => Err EProtocol
    end.
Proof.
  induction counters as [|c rest IH]; [reflexivity|].
  simpl derive_key_loop. rewrite (hash_to_scalar_spec _ L) by apply dst_nonempty.
  cbn [map_err bind].
  match goal with |- context [HashToScalar L ?a ?b] =>
    replace (HashToScalar L a b) with (key_candidate L (mode_id mode) seed info c) end.
  - simpl find. destruct (is_zero_scalar G _); [apply IH|reflexivity].
  - unfold key_candidate. apply f_equal2.
    + unfold lv, len, derive_key_input. cbn [concat]. rewrite ?app_nil_r, <- ?app_assoc, u8_to_be_bytes_I2OSP.
      reflexivity.
    + symmetry. apply (concat_dst STR_DERIVE_KEYPAIR mode).
Qed.

Lemma u8_range_in c : In c u8_range_inclusive <-> c <= 255.
Proof.
  unfold u8_range_inclusive. rewrite in_map_iff. split.
  - intros (n & <- & Hn). apply in_seq in Hn. lia.
  - intros Hc. exists (N.to_nat c). split; [lia|]. apply in_seq. lia.
Qed.

(** [find] on an increasing range gives the least hit. *)
Lemma find_seq_least (f : N -> bool) n : forall s c,
  find f (map N.of_nat (seq s n)) = Some c ->
  f c = true /\ N.of_nat s <= c < N.of_nat (s + n) /\
  forall e, N.of_nat s <= e < c -> f e = false.
Proof.
  induction n; intros s c Hf; simpl in Hf; [discriminate|].
  destruct (f (N.of_nat s)) eqn:E.
  - injection Hf as <-. repeat split; auto; try lia.
  - apply IHn in Hf as (H1 & H2 & H3). repeat split; auto; try lia.
    intros e He. destruct (N.eq_dec e (N.of_nat s)) as [->|]; auto. apply H3. lia.
Qed.

Lemma find_seq_none (f : N -> bool) n s :
  find f (map N.of_nat (seq s n)) = None ->
  forall e, N.of_nat s <= e < N.of_nat (s + n) -> f e = false.
Proof.
  intros Hf e He.
  apply (find_none _ _ Hf). apply in_map_iff. exists (N.to_nat e). split; [lia|]. apply in_seq. lia.
Qed.

Lemma derive_key_internal_long seed info mode :
  65535 < len info -> derive_key_internal CS seed info mode = Err EDeriveKeyPair.
Proof.
  intros Hl. unfold derive_key_internal. rewrite dst_new_ok by (vm_compute; discriminate).
  cbn [bind]. now rewrite i2osp_2_err.
Qed.

Lemma derive_key_internal_cases seed info mode :
  len info <= 65535 ->
  (exists sk, derive_key_internal CS seed info mode = Ok sk /\ DerivedKey L (mode_id mode) seed info sk)
  \/ (derive_key_internal CS seed info mode = Err EProtocol /\ NoDerivedKey L (mode_id mode) seed info).
Proof.
  intros Hl. unfold derive_key_internal. rewrite dst_new_ok by (vm_compute; discriminate).
  cbn [bind]. rewrite i2osp_2_ok by auto. cbn [map_err bind].
  rewrite derive_key_loop_spec.
  destruct (find _ _) as [c|] eqn:E.
  - left. apply find_seq_least in E as (H1 & H2 & H3). eexists; split; [reflexivity|].
    exists c. split; [lia|]. split; [reflexivity|]. split.
    + apply (is_zero_false GL). now apply negb_true_iff.
    + intros e He. apply (is_zero_spec G GL). specialize (H3 e).
      rewrite <- negb_false_iff. apply H3. lia.
  - right. split; auto. intros c Hc. apply (is_zero_spec G GL).
    rewrite <- negb_false_iff. apply (find_seq_none _ _ _ E). lia.
Qed.

Lemma DerivedKey_unique mode seed info a b :
  DerivedKey L mode seed info a -> DerivedKey L mode seed info b -> a = b.
Proof.
  intros (c & Hc & -> & Hz & Hl) (c' & Hc' & -> & Hz' & Hl').
  destruct (N.lt_total c c') as [Hlt|[->|Hlt]]; auto.
  - now apply Hl' in Hlt.
  - now apply Hl in Hlt.
Qed.

(** ** Composites *)

Lemma elem_len_bytes_ok e : elem_len_bytes CS = I2OSP (N.of_nat (length (serialize_elem G e))) 2.
Proof.
  unfold elem_len_bytes. rewrite u16_to_be_bytes_I2OSP.
  rewrite <- (serialize_elem_len G GL e). reflexivity.
Qed.

Lemma lv_ser e r : elem_len_bytes CS ++ serialize_elem G e ++ r = lv (serialize_elem G e) ++ r.
Proof. unfold lv. rewrite (elem_len_bytes_ok e), <- app_assoc. reflexivity. Qed.

Lemma composite_seed_ok b mode :
  composite_seed CS b (the_dst STR_SEED mode) = Ok (proof_seed (mode_id mode) b).
Proof.
  unfold composite_seed, dst_i2osp_2.
  assert (Hlen : len (dst_1 (the_dst STR_SEED mode)) + len (dst_2 (the_dst STR_SEED mode))
                 = len (STR_SEED ++ contextString (CS := CS) (mode_id mode))).
  { rewrite <- concat_dst. unfold as_dst. cbn [concat]. rewrite app_nil_r, len_app. reflexivity. }
  rewrite Hlen.
  assert (Hb : len (STR_SEED ++ contextString (CS := CS) (mode_id mode)) <= 65535).
  { pose proof (id_bound _ L). unfold contextString. rewrite !len_app.
    change (len STR_SEED) with 5. change (len (str "OPRFV1-")) with 7.
    change (len (str "-")) with 1. unfold len at 1. rewrite I2OSP_length. lia. }
  rewrite i2osp_2_ok by auto. cbn [unwrap bind].
  rewrite chain_update_multi_concat, concat_dst. unfold chain_update, hash_new.
  unfold finalize_hash, proof_seed. do 2 f_equal. rewrite app_nil_l, <- !app_assoc.
  rewrite (lv_ser b). unfold lv, len. rewrite <- !app_assoc. reflexivity.
Qed.

Lemma composite_weight_ok seed mode i c d :
  len seed <= 65535 ->
  hash_to_scalar G H
    [i2osp_2_array seed; seed; u16_to_be_bytes (N.of_nat i);
     elem_len_bytes CS; serialize_elem G c; elem_len_bytes CS; serialize_elem G d; STR_COMPOSITE]
    (as_dst (the_dst STR_HASH_TO_SCALAR mode))
  = Ok (weight L (mode_id mode) seed i c d).
Proof.
  intros Hs. rewrite h2s_ok. f_equal. unfold weight. f_equal.
  cbn [concat]. rewrite app_nil_r. rewrite !lv_ser.
  unfold i2osp_2_array. rewrite !u16_to_be_bytes_I2OSP.
  unfold lv at 3. rewrite <- !app_assoc. reflexivity.
Qed.

Lemma composite_step_ok k seed mode m z i c d :
  len seed <= 65535 ->
  composite_step CS k seed mode (m, z) (N.of_nat i, (c, d))
  = Ok (weight L (mode_id mode) seed i c d [*] c [+] m,
        match k with Some _ => z | None => weight L (mode_id mode) seed i c d [*] d [+] z end).
Proof.
  intros Hs. unfold composite_step, composite_input. rewrite dst_new_ok by (vm_compute; discriminate).
  cbn [bind]. rewrite composite_weight_ok by auto. reflexivity.
Qed.

Lemma composite_loop_ok k seed mode : len seed <= 65535 ->
  forall C D i m z, length C = length D ->
  let ws := weights_from L (mode_id mode) seed i (combine C D) in
  composite_loop CS k seed mode (m, z) (combine (map N.of_nat (seq i (length C))) (combine C D))
  = Ok (lincomb ws C [+] m, match k with Some _ => z | None => lincomb ws D [+] z end).
Proof.
  intros Hs C. induction C as [|c C IH]; intros [|d D] i m z Hl; try discriminate.
  - simpl. rewrite !(elem_add_id G GL). destruct k; reflexivity.
  - injection Hl as Hl. cbn [combine length seq map composite_loop].
    rewrite composite_step_ok by auto. cbn [bind]. rewrite IH by auto.
    cbn [weights_from lincomb]. f_equal. f_equal.
    + rewrite !(elem_add_assoc G GL). f_equal. apply (elem_add_comm G GL).
    + destruct k; auto. rewrite !(elem_add_assoc G GL). f_equal. apply (elem_add_comm G GL).
Qed.

Lemma proof_seed_len mode (b : elem CS) : len (proof_seed mode b) <= 65535.
Proof.
  unfold proof_seed. rewrite (digest_len _ L). pose proof (output_size_bound _ L). lia.
Qed.

Lemma compute_composites_err k b C D mode :
  len C <> len D \/ 65535 < len C -> compute_composites CS k b C D mode = Err EBatch.
Proof.
  intros Hc. unfold compute_composites.
  destruct (N.eqb_spec (len C) (len D)) as [He|Hne]; [|reflexivity].
  destruct Hc as [Hc|Hc]; [contradiction|]. cbn [negb].
  unfold u16_max. now rewrite (proj2 (N.leb_gt _ _) Hc).
Qed.

Lemma compute_composites_ok k b C D mode :
  len C = len D -> len C <= 65535 ->
  compute_composites CS k b C D mode
  = Ok (compositeM L (mode_id mode) b C D,
        match k with
        | Some k => k [*] compositeM L (mode_id mode) b C D
        | None => compositeZ L (mode_id mode) b C D
        end).
Proof.
  intros He Hl. unfold compute_composites.
  rewrite (proj2 (N.eqb_eq _ _) He), (proj2 (N.leb_le _ _) Hl : (len C <=? u16_max) = true).
  cbn [negb]. rewrite dst_new_ok by (vm_compute; discriminate). cbn [bind].
  rewrite composite_seed_ok. cbn [bind].
  unfold u16_range. unfold len at 1. rewrite Nat2N.id.
  rewrite composite_loop_ok; [|apply proof_seed_len|unfold len in He; lia].
  cbn [bind]. rewrite !(add_id_r GL). unfold compositeM, compositeZ, weights.
  destruct k; reflexivity.
Qed.

Lemma challenge_input_ok b m z t2 t3 mode :
  hash_to_scalar G H (challenge_input CS b m z t2 t3) (as_dst (the_dst STR_HASH_TO_SCALAR mode))
  = Ok (challenge L (mode_id mode) b m z t2 t3).
Proof.
  rewrite h2s_ok. unfold challenge, challenge_input. do 2 f_equal.
  cbn [concat]. rewrite app_nil_r, !lv_ser. reflexivity.
Qed.

(** The proof a prover with key [k] and nonce [r] makes, and the composite of
    the second list it uses (the fast one). *)
Definition proof_with (mode : N) (k : scalar CS) (a b m z : elem CS) (r : scalar CS) : Proof CS :=
  let c := challenge L mode b m z (r [*] a) (r [*] m) in
  mkProof c (scalar_sub G r (scalar_mul G c k)).

Lemma generate_proof_ok R k a b C D mode st :
  len C = len D -> len C <= 65535 ->
  generate_proof CS R k a b C D mode st =
  let M := compositeM L (mode_id mode) b C D in
  match random_scalar G R st with
  | (Ok r, st') => (Ok (proof_with (mode_id mode) k a b M (k [*] M) r), st')
  | (Err e, st') => (Err e, st')
  | (Panic, st') => (Panic, st')
  | (Diverge, st') => (Diverge, st')
  end.
Proof.
  intros He Hl. unfold generate_proof, rbind, rret.
  rewrite compute_composites_ok by auto.
  destruct (random_scalar G R st) as [[r| | |] st']; auto.
  rewrite dst_new_ok by (vm_compute; discriminate).
  rewrite challenge_input_ok. cbn [unwrap]. reflexivity.
Qed.

Lemma generate_proof_err R k a b C D mode st :
  len C <> len D \/ 65535 < len C ->
  generate_proof CS R k a b C D mode st = (Err EBatch, st).
Proof.
  intros Hc. unfold generate_proof, rbind, rret. now rewrite compute_composites_err.
Qed.

Lemma verify_proof_err a b C D p mode :
  len C <> len D \/ 65535 < len C -> verify_proof CS a b C D p mode = Err EBatch.
Proof. intros Hc. unfold verify_proof. now rewrite compute_composites_err. Qed.

Lemma verify_proof_ok a b C D p mode :
  len C = len D -> len C <= 65535 ->
  verify_proof CS a b C D p mode = Ok tt <-> VerifyProof L (mode_id mode) a b C D (c_scalar p) (s_scalar p).
Proof.
  intros He Hl. unfold verify_proof. rewrite compute_composites_ok by auto. cbn [bind].
  rewrite dst_new_ok by (vm_compute; discriminate). cbn [bind].
  rewrite challenge_input_ok. cbn [unwrap bind]. unfold VerifyProof.
  destruct (scalar_ct_eq G _ _) eqn:E.
  - apply (scalar_ct_eq_spec G GL) in E. split; auto.
  - split; [discriminate|]. intros Hv. apply (scalar_ct_eq_spec G GL) in Hv. congruence.
Qed.

Lemma verify_proof_not a b C D p mode :
  len C = len D -> len C <= 65535 ->
  ~ VerifyProof L (mode_id mode) a b C D (c_scalar p) (s_scalar p) ->
  verify_proof CS a b C D p mode = Err EProofVerification.
Proof.
  intros He Hl Hn. unfold verify_proof. rewrite compute_composites_ok by auto. cbn [bind].
  rewrite dst_new_ok by (vm_compute; discriminate). cbn [bind].
  rewrite challenge_input_ok. cbn [unwrap bind].
  destruct (scalar_ct_eq G _ _) eqn:E; auto.
  apply (scalar_ct_eq_spec G GL) in E. now elim Hn.
Qed.

(** [verify_proof] never panics and has only two errors. *)
Lemma verify_proof_cases a b C D p mode :
  verify_proof CS a b C D p mode = Ok tt \/
  verify_proof CS a b C D p mode = Err EBatch \/
  verify_proof CS a b C D p mode = Err EProofVerification.
Proof.
  destruct (N.eq_dec (len C) (len D)) as [He|He]; [|right; left; now apply verify_proof_err; auto].
  destruct (N.leb_spec (len C) 65535) as [Hl|Hl]; [|right; left; now apply verify_proof_err; auto].
  unfold verify_proof. rewrite compute_composites_ok by auto. cbn [bind].
  rewrite dst_new_ok by (vm_compute; discriminate). cbn [bind].
  rewrite challenge_input_ok. cbn [unwrap bind].
  destruct (scalar_ct_eq G _ _); auto.
Qed.

(** Completeness: if [Z = k*M] and [b = k*a], the proof verifies. *)
Lemma lincomb_mul ws Ps k : lincomb (CS := CS) ws (map (fun P => k [*] P) Ps) = k [*] lincomb ws Ps.
Proof.
  revert Ps. induction ws as [|w ws IH]; intros [|P Ps]; simpl; try (now rewrite (id_mul GL)).
  rewrite IH, (elem_mul_eadd G GL). f_equal. apply (mul_comm2 GL).
Qed.

Lemma compositeZ_mul mode b C k :
  compositeZ L mode b C (map (fun P => k [*] P) C)
  = k [*] compositeM L mode b C (map (fun P => k [*] P) C).
Proof. unfold compositeZ, compositeM. apply lincomb_mul. Qed.

Lemma verify_complete mode a k C D r M Z :
  M = compositeM L mode (k [*] a) C D -> Z = compositeZ L mode (k [*] a) C D -> Z = k [*] M ->
  let p := proof_with mode k a (k [*] a) M Z r in
  VerifyProof L mode a (k [*] a) C D (c_scalar p) (s_scalar p).
Proof.
  intros HM HZ HZM p. unfold VerifyProof. rewrite <- HM, <- HZ.
  assert (Hp : forall P, s_scalar p [*] P [+] c_scalar p [*] (k [*] P) = r [*] P).
  { intros P. rewrite (elem_mul_mul G GL), (add_mul GL). f_equal.
    unfold p, proof_with. cbn [c_scalar s_scalar]. ring. }
  assert (HpM : s_scalar p [*] M [+] c_scalar p [*] Z = r [*] M)
    by (transitivity (s_scalar p [*] M [+] c_scalar p [*] (k [*] M)); [now rewrite <- HZM|apply Hp]).
  rewrite Hp, HpM. reflexivity.
Qed.

(** ** The output hash *)

Lemma server_evaluate_hash_input_none input e :
  len input <= 65535 ->
  server_evaluate_hash_input CS input None (serialize_elem G e) = Ok (FinalizeHash (CS := CS) input e).
Proof.
  intros Hi. unfold server_evaluate_hash_input. rewrite i2osp_2_ok by auto. cbn [map_err bind].
  rewrite i2osp_2_ok by (rewrite (serialize_elem_len G GL); apply (elem_len_bound G GL)).
  cbn [map_err bind]. unfold finalize_hash, FinalizeHash, chain_update, hash_new, lv, len.
  do 2 f_equal. rewrite app_nil_l, <- !app_assoc. reflexivity.
Qed.

Lemma server_evaluate_hash_input_some input info e :
  len input <= 65535 -> len info <= 65535 ->
  server_evaluate_hash_input CS input (Some info) (serialize_elem G e)
  = Ok (FinalizeHashInfo (CS := CS) input info e).
Proof.
  intros Hi Hn. unfold server_evaluate_hash_input. rewrite !i2osp_2_ok by auto. cbn [map_err bind].
  rewrite i2osp_2_ok by (rewrite (serialize_elem_len G GL); apply (elem_len_bound G GL)).
  cbn [map_err bind]. unfold finalize_hash, FinalizeHashInfo, chain_update, hash_new, lv, len.
  do 2 f_equal. rewrite app_nil_l, <- !app_assoc. reflexivity.
Qed.

Lemma server_evaluate_hash_input_long input info e :
  65535 < len input -> server_evaluate_hash_input CS input info e = Err EInput.
Proof.
  intros Hi. unfold server_evaluate_hash_input. now rewrite i2osp_2_err.
Qed.

End CommonFacts.
