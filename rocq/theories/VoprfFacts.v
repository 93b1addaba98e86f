(** * VoprfFacts: lemmas about the verifiable mode. *)
From Verif Require Export Voprf CommonFacts OprfFacts.
Open Scope N_scope.

Section VoprfFacts.
Context {CS : CipherSuite} (L : SuiteLaws CS).
Local Notation G := (CSGroup CS).
Local Notation GL := (group_laws L).
Local Notation "P [+] Q" := (elem_add G P Q) (at level 50, left associativity).
Local Notation "k [*] P" := (elem_mul G P k) (at level 40).
Local Notation Gen := (base_elem G).

Lemma voprf_blind_unchecked_ok input blind :
  voprf_client_deterministic_blind_unchecked CS input blind
  = Ok (mkVoprfClientBlindResult
          (mkVoprfClient blind (blind [*] H2G L modeVOPRF input))
          (mkBlinded (blind [*] H2G L modeVOPRF input))).
Proof.
  unfold voprf_client_deterministic_blind_unchecked.
  rewrite (deterministic_blind_unchecked_ok L). reflexivity.
Qed.

Lemma voprf_blind_ok R input st :
  voprf_client_blind CS R input st =
  match random_scalar G R st with
  | (Ok r, st') => (Ok (mkVoprfClientBlindResult
                          (mkVoprfClient r (r [*] H2G L modeVOPRF input))
                          (mkBlinded (r [*] H2G L modeVOPRF input))), st')
  | (Err e, st') => (Err e, st')
  | (Panic, st') => (Panic, st')
  | (Diverge, st') => (Diverge, st')
  end.
Proof.
  unfold voprf_client_blind, rbind. destruct (random_scalar G R st) as [[r|e| |] st']; auto.
  unfold rret. now rewrite voprf_blind_unchecked_ok.
Qed.

Lemma voprf_finalize_one_ok input e :
  len input <= 65535 -> voprf_finalize_one CS input e = Ok (FinalizeHash (CS := CS) input e).
Proof. exact (oprf_finalize_one_ok L input e). Qed.

Lemma voprf_finalize_one_long input e :
  65535 < len input -> voprf_finalize_one CS input e = Err EInput.
Proof. exact (oprf_finalize_one_long input e). Qed.

(** Preparation is multiplication by the key. *)
Lemma voprf_prepare_ok (srv : VoprfServer CS) bs :
  voprf_server_batch_blind_evaluate_prepare CS srv bs
  = map (fun b => mkPrepared (mkEvaluation (voprf_sk srv [*] blinded_value b))) bs.
Proof.
  unfold voprf_server_batch_blind_evaluate_prepare. induction bs; simpl; auto. now f_equal.
Qed.

Lemma len_map {A B} (f : A -> B) l : len (map f l) = len l.
Proof. unfold len. now rewrite map_length. Qed.

(** The state-transformer form of the [finish] step. *)
Lemma voprf_finish_ok R srv bs es st :
  len bs = len es -> len bs <= 65535 ->
  voprf_server_batch_blind_evaluate_finish CS srv R bs es st =
  let C := map blinded_value bs in
  let D := map (fun e => evaluation_value (prepared_value e)) es in
  let M := compositeM L modeVOPRF (voprf_pk srv) C D in
  match random_scalar G R st with
  | (Ok r, st') =>
      (Ok (mkVoprfServerBatchEvaluateResult (map mkEvaluation D)
             (proof_with L modeVOPRF (voprf_sk srv) Gen (voprf_pk srv) M (voprf_sk srv [*] M) r)), st')
  | (Err e, st') => (Err e, st')
  | (Panic, st') => (Panic, st')
  | (Diverge, st') => (Diverge, st')
  end.
Proof.
  intros He Hl. unfold voprf_server_batch_blind_evaluate_finish, rbind.
  rewrite (generate_proof_ok L) by (rewrite ?len_map; auto).
  cbv zeta. destruct (random_scalar G R st) as [[r|e| |] st']; auto.
  unfold rret. rewrite map_map. reflexivity.
Qed.

Lemma voprf_finish_err R srv bs es st :
  len bs <> len es \/ 65535 < len bs ->
  voprf_server_batch_blind_evaluate_finish CS srv R bs es st = (Err EBatch, st).
Proof.
  intros Hc. unfold voprf_server_batch_blind_evaluate_finish, rbind.
  rewrite generate_proof_err; auto. now rewrite !len_map.
Qed.

Lemma voprf_batch_err R srv bs st :
  65535 < len bs -> voprf_server_batch_blind_evaluate CS srv R bs st = (Err EBatch, st).
Proof.
  intros Hc. unfold voprf_server_batch_blind_evaluate, rbind.
  rewrite voprf_finish_err; auto.
Qed.

(** The messages and the proof of a batch evaluation with nonce [r]. *)
Definition voprf_batch_result (srv : VoprfServer CS) (bs : list (BlindedElement CS)) (r : scalar CS)
  : VoprfServerBatchEvaluateResult CS :=
  let C := map blinded_value bs in
  let D := map (fun P => voprf_sk srv [*] P) C in
  let M := compositeM L modeVOPRF (voprf_pk srv) C D in
  mkVoprfServerBatchEvaluateResult (map mkEvaluation D)
    (proof_with L modeVOPRF (voprf_sk srv) Gen (voprf_pk srv) M (voprf_sk srv [*] M) r).

Lemma voprf_batch_ok R srv bs st :
  len bs <= 65535 ->
  voprf_server_batch_blind_evaluate CS srv R bs st =
  match random_scalar G R st with
  | (Ok r, st') => (Ok (voprf_batch_result srv bs r), st')
  | (Err e, st') => (Err e, st')
  | (Panic, st') => (Panic, st')
  | (Diverge, st') => (Diverge, st')
  end.
Proof.
  intros Hl. unfold voprf_server_batch_blind_evaluate, rbind. rewrite voprf_prepare_ok.
  rewrite voprf_finish_ok by (rewrite ?len_map; auto). cbv zeta.
  destruct (random_scalar G R st) as [[r|e| |] st']; auto.
  unfold rret, voprf_batch_result. cbn [voprf_batch_messages voprf_batch_proof].
  rewrite !map_map. reflexivity.
Qed.

Lemma voprf_single_ok R srv b st :
  voprf_server_blind_evaluate CS srv R b st =
  match random_scalar G R st with
  | (Ok r, st') =>
      (Ok (mkVoprfServerEvaluateResult (mkEvaluation (voprf_sk srv [*] blinded_value b))
             (voprf_batch_proof (voprf_batch_result srv [b] r))), st')
  | (Err e, st') => (Panic, st')
  | (Panic, st') => (Panic, st')
  | (Diverge, st') => (Diverge, st')
  end.
Proof.
  unfold voprf_server_blind_evaluate, rbind, runwrap. rewrite voprf_prepare_ok.
  unfold rret at 1. cbn [map hd_error unwrap_opt].
  rewrite voprf_finish_ok by (unfold len; simpl; lia). cbv zeta.
  destruct (random_scalar G R st) as [[r|e| |] st']; reflexivity.
Qed.

(** The honest proof verifies. *)
Lemma voprf_honest_verifies sk bs r :
  let srv := mkVoprfServer sk (sk [*] Gen) in
  len bs <= 65535 ->
  let res := voprf_batch_result srv bs r in
  verify_proof CS Gen (sk [*] Gen) (map blinded_value bs)
    (map evaluation_value (voprf_batch_messages res)) (voprf_batch_proof res) Voprf = Ok tt.
Proof.
  intros srv Hl res. apply (verify_proof_ok L).
  - subst res. unfold voprf_batch_result. cbn [voprf_batch_messages]. now rewrite !len_map.
  - now rewrite len_map.
  - subst res srv. unfold voprf_batch_result. cbn [voprf_batch_messages voprf_batch_proof voprf_sk voprf_pk mode_id].
    rewrite (map_map mkEvaluation evaluation_value). cbn [evaluation_value]. rewrite (map_id (map _ (map _ bs))).
    apply (verify_complete L); auto.
    rewrite <- compositeZ_mul. reflexivity.
Qed.

(** [verifiable_unblind] as a function of the verification. *)
Lemma verifiable_unblind_ok clients messages pk p :
  verify_proof CS Gen pk (map voprf_blinded_element clients) (map evaluation_value messages) p Voprf = Ok tt ->
  (forall c, In c clients -> voprf_blind c <> zero_scalar G) ->
  verifiable_unblind CS clients messages pk p
  = Ok (map (fun '(c, x) => Ok (s_inv GL (voprf_blind c) [*] evaluation_value x)) (combine clients messages)).
Proof.
  intros Hv Hz. unfold verifiable_unblind. rewrite Hv. cbn [bind]. f_equal.
  clear Hv. revert messages. induction clients as [|c cl IH]; intros [|m ms]; simpl; auto.
  f_equal.
  - unfold voprf_unblind_one. rewrite (invert_nonzero G GL); auto. apply Hz. now left.
  - apply IH. intros c' Hc'. apply Hz. now right.
Qed.

Lemma voprf_evaluate_ok sk pk input :
  len input <= 65535 -> H2G L modeVOPRF input <> identity_elem G ->
  voprf_server_evaluate CS (mkVoprfServer sk pk) input = Ok (PRF L modeVOPRF sk input).
Proof.
  intros Hi Hid. unfold voprf_server_evaluate. rewrite (hash_to_group_ok L). cbn [bind mode_id].
  rewrite (proj2 (is_identity_false GL _) Hid). cbn [voprf_sk].
  now rewrite (server_evaluate_hash_input_none L).
Qed.

Lemma voprf_evaluate_err srv input :
  65535 < len input \/ H2G L modeVOPRF input = identity_elem G ->
  voprf_server_evaluate CS srv input = Err EInput.
Proof.
  intros Hc. unfold voprf_server_evaluate. rewrite (hash_to_group_ok L). cbn [bind mode_id].
  destruct (is_identity_elem G _) eqn:E; auto.
  destruct Hc as [Hc|Hc].
  - now apply (server_evaluate_hash_input_long).
  - apply (is_identity_spec GL) in Hc. congruence.
Qed.

(** [batch_finalize] on a verifying proof. *)
Lemma voprf_batch_finalize_ok inputs clients messages p pk :
  verify_proof CS Gen pk (map voprf_blinded_element clients) (map evaluation_value messages) p Voprf = Ok tt ->
  (forall c, In c clients -> voprf_blind c <> zero_scalar G) ->
  voprf_client_batch_finalize CS inputs clients messages p pk
  = Ok (map (fun '(input, (c, x)) =>
               voprf_finalize_one CS input (s_inv GL (voprf_blind c) [*] evaluation_value x))
            (combine inputs (combine clients messages))).
Proof.
  intros Hv Hz. unfold voprf_client_batch_finalize. rewrite verifiable_unblind_ok by auto.
  cbn [bind]. f_equal. unfold voprf_finalize_after_unblind.
  generalize (combine clients messages) as cm. clear. revert inputs.
  induction inputs as [|i is IH]; intros [|[c m] cm]; simpl; auto. now f_equal.
Qed.

Lemma voprf_batch_finalize_fail inputs clients messages p pk e :
  verify_proof CS Gen pk (map voprf_blinded_element clients) (map evaluation_value messages) p Voprf = Err e ->
  voprf_client_batch_finalize CS inputs clients messages p pk = Err e.
Proof.
  intros Hv. unfold voprf_client_batch_finalize, verifiable_unblind. now rewrite Hv.
Qed.

End VoprfFacts.
