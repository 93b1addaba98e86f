(** * OprfFacts: lemmas about the base mode. *)
From Verif Require Export Oprf CommonFacts.
Open Scope N_scope.

Section OprfFacts.
Context {CS : CipherSuite} (L : SuiteLaws CS).
Local Notation G := (CSGroup CS).
Local Notation GL := (group_laws L).
Local Notation "P [+] Q" := (elem_add G P Q) (at level 50, left associativity).
Local Notation "k [*] P" := (elem_mul G P k) (at level 40).

Lemma oprf_blind_unchecked_ok input blind :
  oprf_client_deterministic_blind_unchecked CS input blind
  = Ok (mkOprfClientBlindResult (mkOprfClient blind)
          (mkBlinded (blind [*] H2G L modeOPRF input))).
Proof.
  unfold oprf_client_deterministic_blind_unchecked.
  rewrite (deterministic_blind_unchecked_ok L). reflexivity.
Qed.

(** The random scalar either comes out non-zero or sampling does not end. *)
Lemma random_cases R st :
  (exists r st', random_scalar G R st = (Ok r, st') /\ r <> zero_scalar G)
  \/ (exists st', random_scalar G R st = (Diverge, st')).
Proof.
  pose proof (random_nonzero G GL R st) as Hr.
  destruct (random_scalar G R st) as [[r|e| |] st']; simpl in Hr; try contradiction.
  - left. eauto.
  - right. eauto.
Qed.

Lemma oprf_blind_ok R input st :
  oprf_client_blind CS R input st =
  match random_scalar G R st with
  | (Ok r, st') => (Ok (mkOprfClientBlindResult (mkOprfClient r)
                          (mkBlinded (r [*] H2G L modeOPRF input))), st')
  | (Err e, st') => (Err e, st')
  | (Panic, st') => (Panic, st')
  | (Diverge, st') => (Diverge, st')
  end.
Proof.
  unfold oprf_client_blind, rbind. destruct (random_scalar G R st) as [[r|e| |] st']; auto.
  unfold rret. now rewrite oprf_blind_unchecked_ok.
Qed.

Lemma oprf_finalize_one_ok input e :
  len input <= 65535 -> oprf_finalize_one CS input e = Ok (FinalizeHash (CS := CS) input e).
Proof.
  intros Hi. unfold oprf_finalize_one. rewrite i2osp_2_ok by auto. cbn [map_err bind].
  unfold finalize_hash, FinalizeHash, chain_update, hash_new. do 2 f_equal.
  rewrite app_nil_l, <- !app_assoc, (lv_ser L e). unfold lv at 2, len.
  now rewrite <- !app_assoc.
Qed.

Lemma oprf_finalize_one_long input e :
  65535 < len input -> oprf_finalize_one CS input e = Err EInput.
Proof. intros Hi. unfold oprf_finalize_one. now rewrite i2osp_2_err. Qed.

Lemma oprf_finalize_ok (client : OprfClient CS) input ev :
  oprf_blind client <> zero_scalar G -> len input <= 65535 ->
  oprf_client_finalize CS client input ev
  = Ok (FinalizeHash input (s_inv GL (oprf_blind client) [*] evaluation_value ev)).
Proof.
  intros Hb Hi. unfold oprf_client_finalize. rewrite (invert_nonzero G GL) by auto.
  cbn [bind next_unwrap oprf_finalize_after_unblind map]. now apply oprf_finalize_one_ok.
Qed.

Lemma oprf_finalize_long (client : OprfClient CS) input ev :
  oprf_blind client <> zero_scalar G -> 65535 < len input ->
  oprf_client_finalize CS client input ev = Err EInput.
Proof.
  intros Hb Hi. unfold oprf_client_finalize. rewrite (invert_nonzero G GL) by auto.
  cbn [bind next_unwrap oprf_finalize_after_unblind map]. now apply oprf_finalize_one_long.
Qed.

Lemma oprf_evaluate_ok sk input :
  len input <= 65535 -> H2G L modeOPRF input <> identity_elem G ->
  oprf_server_evaluate CS (mkOprfServer sk) input = Ok (PRF L modeOPRF sk input).
Proof.
  intros Hi Hid. unfold oprf_server_evaluate. rewrite (hash_to_group_ok L). cbn [bind mode_id].
  rewrite (proj2 (is_identity_false GL _) Hid). cbn [oprf_sk].
  now rewrite (server_evaluate_hash_input_none L).
Qed.

Lemma oprf_evaluate_err sk input :
  65535 < len input \/ H2G L modeOPRF input = identity_elem G ->
  oprf_server_evaluate CS (mkOprfServer sk) input = Err EInput.
Proof.
  intros Hc. unfold oprf_server_evaluate. rewrite (hash_to_group_ok L). cbn [bind mode_id].
  destruct (is_identity_elem G _) eqn:E; auto.
  destruct Hc as [Hc|Hc].
  - now apply (server_evaluate_hash_input_long).
  - apply (is_identity_spec GL) in Hc. congruence.
Qed.

End OprfFacts.
