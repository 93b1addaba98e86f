(** * Voprf: model of /repo/src/voprf.rs (verifiable mode) *)
From Verif Require Export Common.

(** voprf.rs:45-54, [VoprfClient]. *)
Record VoprfClient (CS : CipherSuite) : Type := mkVoprfClient {
  voprf_blind : scalar CS;
  voprf_blinded_element : elem CS
}.
Arguments mkVoprfClient {CS} _ _.
Arguments voprf_blind {CS} _.
Arguments voprf_blinded_element {CS} _.

(** voprf.rs:65-74, [VoprfServer]. *)
Record VoprfServer (CS : CipherSuite) : Type := mkVoprfServer {
  voprf_sk : scalar CS;
  voprf_pk : elem CS
}.
Arguments mkVoprfServer {CS} _ _.
Arguments voprf_sk {CS} _.
Arguments voprf_pk {CS} _.

(** voprf.rs:405-414, [VoprfClientBlindResult]. *)
Record VoprfClientBlindResult (CS : CipherSuite) : Type := mkVoprfClientBlindResult {
  voprf_state : VoprfClient CS;
  voprf_message : BlindedElement CS
}.
Arguments mkVoprfClientBlindResult {CS} _ _.
Arguments voprf_state {CS} _.
Arguments voprf_message {CS} _.

(** voprf.rs:426-435, [VoprfServerEvaluateResult]. *)
Record VoprfServerEvaluateResult (CS : CipherSuite) : Type := mkVoprfServerEvaluateResult {
  voprf_eval_message : EvaluationElement CS;
  voprf_eval_proof : Proof CS
}.
Arguments mkVoprfServerEvaluateResult {CS} _ _.
Arguments voprf_eval_message {CS} _.
Arguments voprf_eval_proof {CS} _.

(** voprf.rs:440-449 [VoprfServerBatchEvaluateResult] and voprf.rs:473-483
    [VoprfServerBatchEvaluateFinishResult] (whose [messages] is a lazy map
    that cannot fail). *)
Record VoprfServerBatchEvaluateResult (CS : CipherSuite) : Type :=
  mkVoprfServerBatchEvaluateResult {
    voprf_batch_messages : list (EvaluationElement CS);
    voprf_batch_proof : Proof CS
  }.
Arguments mkVoprfServerBatchEvaluateResult {CS} _ _.
Arguments voprf_batch_messages {CS} _.
Arguments voprf_batch_proof {CS} _.

Section Voprf.
Context (CS : CipherSuite).
Local Notation G := (CSGroup CS).
Local Notation H := (CSHash CS).

(** voprf.rs:119-131, [VoprfClient::deterministic_blind_unchecked_inner];
    also the "danger" function at voprf.rs:111-116. *)
Definition voprf_client_deterministic_blind_unchecked (input : bytes) (blind : scalar CS)
  : res (VoprfClientBlindResult CS) :=
  blinded_element <- deterministic_blind_unchecked CS input blind Voprf ;;
  Ok (mkVoprfClientBlindResult (mkVoprfClient blind blinded_element) (mkBlinded blinded_element)).

(** voprf.rs:91-97, [VoprfClient::blind]. *)
Definition voprf_client_blind (R : Rng) (input : bytes)
  : rcomp (rng_state R) (VoprfClientBlindResult CS) :=
  blind <~ random_scalar G R ;;
  rret (voprf_client_deterministic_blind_unchecked input blind).

(** voprf.rs:539-541, the lazily applied closure of [verifiable_unblind]. *)
Definition voprf_unblind_one (blind : scalar CS) (x : EvaluationElement CS) : res (elem CS) :=
  inv <- invert_scalar G blind ;;
  Ok (elem_mul G (evaluation_value x) inv).

(** voprf.rs:507-542, [verifiable_unblind]: a lazy iterator of unblinded
    elements, available only if the proof verifies. *)
Definition verifiable_unblind (clients : list (VoprfClient CS))
    (messages : list (EvaluationElement CS)) (pk : elem CS) (proof : Proof CS)
  : res (list (res (elem CS))) :=
  let g := base_elem G in
  let blinds := map voprf_blind clients in
  let evaluation_elements := map evaluation_value messages in
  let blinded_elements := map voprf_blinded_element clients in
  _ <- verify_proof CS g pk blinded_elements evaluation_elements proof Voprf ;;
  Ok (map (fun '(blind, x) => voprf_unblind_one blind x) (combine blinds messages)).

(** voprf.rs:562-576, the closure of [finalize_after_unblind]. *)
Definition voprf_finalize_one (input : bytes) (unblinded_element : elem CS) : res bytes :=
  il <- map_err (i2osp_2 (len input)) EInput ;;
  Ok (finalize_hash H
        (chain_update
           (chain_update
              (chain_update (chain_update (chain_update hash_new il) input) (elem_len_bytes CS))
              (serialize_elem G unblinded_element))
           STR_FINALIZE)).

(** voprf.rs:550-577, [finalize_after_unblind]; computing an item first
    computes the unblinded element. *)
Definition voprf_finalize_after_unblind (items : list (bytes * res (elem CS)))
  : list (res bytes) :=
  map (fun '(input, unblinded_element) =>
         e <- unblinded_element ;; voprf_finalize_one input e) items.

(** voprf.rs:164-186, [VoprfClient::batch_finalize]; the result is a lazy
    iterator of results.  [zip] stops at the shorter list. *)
Definition voprf_client_batch_finalize (inputs : list bytes) (clients : list (VoprfClient CS))
    (messages : list (EvaluationElement CS)) (proof : Proof CS) (pk : elem CS)
  : res (list (res bytes)) :=
  unblinded_elements <- verifiable_unblind clients messages pk proof ;;
  let inputs_and_unblinded_elements := combine inputs unblinded_elements in
  Ok (voprf_finalize_after_unblind inputs_and_unblinded_elements).

(** voprf.rs:139-152, [VoprfClient::finalize]. *)
Definition voprf_client_finalize (self : VoprfClient CS) (input : bytes)
    (evaluation_element : EvaluationElement CS) (proof : Proof CS) (pk : elem CS) : res bytes :=
  batch_result <- voprf_client_batch_finalize [input] [self] [evaluation_element] proof pk ;;
  next_unwrap batch_result.

(** voprf.rs:244-247, [VoprfServer::new_from_seed]. *)
Definition voprf_server_new_from_seed (seed info : bytes) : res (VoprfServer CS) :=
  '(sk, pk) <- derive_keypair CS seed info Voprf ;;
  Ok (mkVoprfServer sk pk).

(** voprf.rs:216-221, [VoprfServer::new]. *)
Definition voprf_server_new (R : Rng) : rcomp (rng_state R) (VoprfServer CS) :=
  fun st =>
    let '(seed, st') := fill_bytes R st (N.to_nat (scalar_len G)) in
    (voprf_server_new_from_seed seed [], st').

(** voprf.rs:229-233, [VoprfServer::new_with_key]. *)
Definition voprf_server_new_with_key (key : bytes) : res (VoprfServer CS) :=
  sk <- deserialize_scalar G key ;;
  let pk := elem_mul G (base_elem G) sk in
  Ok (mkVoprfServer sk pk).

(** voprf.rs:319-331, [VoprfServer::batch_blind_evaluate_prepare]. *)
Definition voprf_server_batch_blind_evaluate_prepare (self : VoprfServer CS)
    (blinded_elements : list (BlindedElement CS)) : list (PreparedEvaluationElement CS) :=
  map (fun '(blinded_element, sk) =>
         mkPrepared (mkEvaluation (elem_mul G (blinded_value blinded_element) sk)))
      (combine blinded_elements (repeat (voprf_sk self) (length blinded_elements))).

(** voprf.rs:339-374, [VoprfServer::batch_blind_evaluate_finish]. *)
Definition voprf_server_batch_blind_evaluate_finish (self : VoprfServer CS) (R : Rng)
    (blinded_elements : list (BlindedElement CS))
    (evaluation_elements : list (PreparedEvaluationElement CS))
  : rcomp (rng_state R) (VoprfServerBatchEvaluateResult CS) :=
  let g := base_elem G in
  proof <~ generate_proof CS R (voprf_sk self) g (voprf_pk self)
             (map blinded_value blinded_elements)
             (map (fun element => evaluation_value (prepared_value element)) evaluation_elements)
             Voprf ;;
  let messages := map (fun element => mkEvaluation (evaluation_value (prepared_value element)))
                      evaluation_elements in
  rret (Ok (mkVoprfServerBatchEvaluateResult messages proof)).

(** voprf.rs:291-313, [VoprfServer::batch_blind_evaluate]. *)
Definition voprf_server_batch_blind_evaluate (self : VoprfServer CS) (R : Rng)
    (blinded_elements : list (BlindedElement CS))
  : rcomp (rng_state R) (VoprfServerBatchEvaluateResult CS) :=
  let prepared_evaluation_elements :=
    voprf_server_batch_blind_evaluate_prepare self blinded_elements in
  r <~ voprf_server_batch_blind_evaluate_finish self R blinded_elements
         prepared_evaluation_elements ;;
  rret (Ok (mkVoprfServerBatchEvaluateResult (voprf_batch_messages r) (voprf_batch_proof r))).

(** voprf.rs:258-282, [VoprfServer::blind_evaluate], with its three
    [unwrap]s. *)
Definition voprf_server_blind_evaluate (self : VoprfServer CS) (R : Rng)
    (blinded_element : BlindedElement CS) : rcomp (rng_state R) (VoprfServerEvaluateResult CS) :=
  let prepared_evaluation_elements :=
    voprf_server_batch_blind_evaluate_prepare self [blinded_element] in
  prepared_evaluation_element <~ rret (unwrap_opt (hd_error prepared_evaluation_elements)) ;;
  r <~ runwrap (voprf_server_batch_blind_evaluate_finish self R [blinded_element]
                  [prepared_evaluation_element]) ;;
  message <~ rret (unwrap_opt (hd_error (voprf_batch_messages r))) ;;
  rret (Ok (mkVoprfServerEvaluateResult message (voprf_batch_proof r))).

(** voprf.rs:380-390, [VoprfServer::evaluate]. *)
Definition voprf_server_evaluate (self : VoprfServer CS) (input : bytes) : res bytes :=
  input_element <- hash_to_group CS input Voprf ;;
  if is_identity_elem G input_element then Err EInput else
  let evaluated_element := elem_mul G input_element (voprf_sk self) in
  let issued_element := serialize_elem G evaluated_element in
  server_evaluate_hash_input CS input None issued_element.

(** voprf.rs:393-395, [VoprfServer::get_public_key]. *)
Definition voprf_server_get_public_key (self : VoprfServer CS) : elem CS := voprf_pk self.

End Voprf.
