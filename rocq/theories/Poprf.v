(** * Poprf: model of /repo/src/poprf.rs (partially oblivious mode) *)
From Verif Require Export Common.

(** poprf.rs:45-54, [PoprfClient]. *)
Record PoprfClient (CS : CipherSuite) : Type := mkPoprfClient {
  poprf_blind : scalar CS;
  poprf_blinded_element : elem CS
}.
Arguments mkPoprfClient {CS} _ _.
Arguments poprf_blind {CS} _.
Arguments poprf_blinded_element {CS} _.

(** poprf.rs:65-74, [PoprfServer]. *)
Record PoprfServer (CS : CipherSuite) : Type := mkPoprfServer {
  poprf_sk : scalar CS;
  poprf_pk : elem CS
}.
Arguments mkPoprfServer {CS} _ _.
Arguments poprf_sk {CS} _.
Arguments poprf_pk {CS} _.

(** poprf.rs:483-492, [PoprfClientBlindResult]. *)
Record PoprfClientBlindResult (CS : CipherSuite) : Type := mkPoprfClientBlindResult {
  poprf_state : PoprfClient CS;
  poprf_message : BlindedElement CS
}.
Arguments mkPoprfClientBlindResult {CS} _ _.
Arguments poprf_state {CS} _.
Arguments poprf_message {CS} _.

(** poprf.rs:500-509, [PoprfServerEvaluateResult]. *)
Record PoprfServerEvaluateResult (CS : CipherSuite) : Type := mkPoprfServerEvaluateResult {
  poprf_eval_message : EvaluationElement CS;
  poprf_eval_proof : Proof CS
}.
Arguments mkPoprfServerEvaluateResult {CS} _ _.
Arguments poprf_eval_message {CS} _.
Arguments poprf_eval_proof {CS} _.

(** poprf.rs:514-523 [PoprfServerBatchEvaluateResult] and poprf.rs:577-587
    [PoprfServerBatchEvaluateFinishResult]. *)
Record PoprfServerBatchEvaluateResult (CS : CipherSuite) : Type :=
  mkPoprfServerBatchEvaluateResult {
    poprf_batch_messages : list (EvaluationElement CS);
    poprf_batch_proof : Proof CS
  }.
Arguments mkPoprfServerBatchEvaluateResult {CS} _ _.
Arguments poprf_batch_messages {CS} _.
Arguments poprf_batch_proof {CS} _.

(** poprf.rs:545-551, [PoprfPreparedTweak]. *)
Record PoprfPreparedTweak (CS : CipherSuite) : Type := mkPreparedTweak { tweak_value : scalar CS }.
Arguments mkPreparedTweak {CS} _.
Arguments tweak_value {CS} _.

(** poprf.rs:556-565, [PoprfServerBatchEvaluatePrepareResult]; the elements
    are a lazy iterator whose items call [invert_scalar]. *)
Record PoprfServerBatchEvaluatePrepareResult (CS : CipherSuite) : Type :=
  mkPoprfPrepareResult {
    poprf_prepared_elements : list (res (PreparedEvaluationElement CS));
    poprf_prepared_tweak : PoprfPreparedTweak CS
  }.
Arguments mkPoprfPrepareResult {CS} _ _.
Arguments poprf_prepared_elements {CS} _.
Arguments poprf_prepared_tweak {CS} _.

(** [Option::unwrap_or_default] on [Option<&[u8]>], poprf.rs:607, 645, 701
    and 754. *)
Definition info_or_default (info : option bytes) : bytes :=
  match info with Some i => i | None => [] end.

(** poprf.rs:616 and 653, [framed_info]: the hash input for the
    tweak, as the slice list passed to [hash_to_scalar]. *)
Definition framed_info_of (info_len info : bytes) : list bytes := [STR_INFO; info_len; info].

Section Poprf.
Context (CS : CipherSuite).
Local Notation G := (CSGroup CS).
Local Notation H := (CSHash CS).

(** poprf.rs:119-131, [PoprfClient::deterministic_blind_unchecked_inner];
    also the "danger" function at poprf.rs:111-116. *)
Definition poprf_client_deterministic_blind_unchecked (input : bytes) (blind : scalar CS)
  : res (PoprfClientBlindResult CS) :=
  blinded_element <- deterministic_blind_unchecked CS input blind Poprf ;;
  Ok (mkPoprfClientBlindResult (mkPoprfClient blind blinded_element) (mkBlinded blinded_element)).

(** poprf.rs:91-97, [PoprfClient::blind]. *)
Definition poprf_client_blind (R : Rng) (input : bytes)
  : rcomp (rng_state R) (PoprfClientBlindResult CS) :=
  blind <~ random_scalar G R ;;
  rret (poprf_client_deterministic_blind_unchecked input blind).

(** poprf.rs:598-630, [compute_tweaked_key]. *)
Definition compute_tweaked_key (pk : elem CS) (info : option bytes) : res (elem CS) :=
  let info := info_or_default info in
  info_len <- map_err (i2osp_2 (len info)) EInfo ;;
  let framed_info := framed_info_of info_len info in
  dst <- dst_new CS STR_HASH_TO_SCALAR Poprf ;;
  m <- unwrap (hash_to_scalar G H framed_info (as_dst dst)) ;;
  let t := elem_mul G (base_elem G) m in
  let tweaked_key := elem_add G t pk in
  if is_identity_elem G tweaked_key then Err EProtocol else Ok tweaked_key.

(** poprf.rs:636-666, [compute_tweak]. *)
Definition compute_tweak (sk : scalar CS) (info : option bytes) : res (scalar CS) :=
  let info := info_or_default info in
  info_len <- map_err (i2osp_2 (len info)) EInfo ;;
  let framed_info := framed_info_of info_len info in
  dst <- dst_new CS STR_HASH_TO_SCALAR Poprf ;;
  m <- unwrap (hash_to_scalar G H framed_info (as_dst dst)) ;;
  let t := scalar_add G sk m in
  if is_zero_scalar G t then Err EProtocol else Ok t.

(** poprf.rs:722-724, the lazily applied closure of [poprf_unblind]. *)
Definition poprf_unblind_one (blind : scalar CS) (x : EvaluationElement CS) : res (elem CS) :=
  inv <- invert_scalar G blind ;;
  Ok (elem_mul G (evaluation_value x) inv).

(** poprf.rs:686-725, [poprf_unblind].  The evaluation elements are the [cs]
    and the blinded elements the [ds] of the proof. *)
Definition poprf_unblind (clients : list (PoprfClient CS)) (messages : list (EvaluationElement CS))
    (pk : elem CS) (proof : Proof CS) (info : option bytes) : res (list (res (elem CS))) :=
  let info := info_or_default info in
  tweaked_key <- compute_tweaked_key pk (Some info) ;;
  let g := base_elem G in
  let blinds := map poprf_blind clients in
  let evaluation_elements := map evaluation_value messages in
  let blinded_elements := map poprf_blinded_element clients in
  _ <- verify_proof CS g tweaked_key evaluation_elements blinded_elements proof Poprf ;;
  Ok (map (fun '(blind, x) => poprf_unblind_one blind x) (combine blinds messages)).

(** poprf.rs:757-776, the closure of [finalize_after_unblind]. *)
Definition poprf_finalize_one (unblinded_element : elem CS) (input info : bytes) : res bytes :=
  il <- map_err (i2osp_2 (len input)) EInput ;;
  nl <- map_err (i2osp_2 (len info)) EInfo ;;
  Ok (finalize_hash H
        (chain_update
           (chain_update
              (chain_update
                 (chain_update
                    (chain_update (chain_update (chain_update hash_new il) input) nl)
                    info)
                 (elem_len_bytes CS))
              (serialize_elem G unblinded_element))
           STR_FINALIZE)).

(** poprf.rs:736-778, [finalize_after_unblind]. *)
Definition poprf_finalize_after_unblind (unblinded_elements : list (res (elem CS)))
    (inputs : list bytes) (info : option bytes) : res (list (res bytes)) :=
  if negb (len unblinded_elements =? len inputs)%N then Err EBatch else
  let info := info_or_default info in
  Ok (map (fun '((unblinded_element, input), info) =>
             e <- unblinded_element ;; poprf_finalize_one e input info)
          (combine (combine unblinded_elements inputs)
                   (repeat info (length (combine unblinded_elements inputs))))).

(** poprf.rs:169-187, [PoprfClient::batch_finalize]. *)
Definition poprf_client_batch_finalize (inputs : list bytes) (clients : list (PoprfClient CS))
    (messages : list (EvaluationElement CS)) (proof : Proof CS) (pk : elem CS)
    (info : option bytes) : res (list (res bytes)) :=
  unblinded_elements <- poprf_unblind clients messages pk proof info ;;
  poprf_finalize_after_unblind unblinded_elements inputs info.

(** poprf.rs:141-155, [PoprfClient::finalize]. *)
Definition poprf_client_finalize (self : PoprfClient CS) (input : bytes)
    (evaluation_element : EvaluationElement CS) (proof : Proof CS) (pk : elem CS)
    (info : option bytes) : res bytes :=
  batch_result <- poprf_client_batch_finalize [input] [self] [evaluation_element] proof pk info ;;
  next_unwrap batch_result.

(** poprf.rs:233-236, [PoprfServer::new_from_seed]. *)
Definition poprf_server_new_from_seed (seed info : bytes) : res (PoprfServer CS) :=
  '(sk, pk) <- derive_keypair CS seed info Poprf ;;
  Ok (mkPoprfServer sk pk).

(** poprf.rs:205-210, [PoprfServer::new]. *)
Definition poprf_server_new (R : Rng) : rcomp (rng_state R) (PoprfServer CS) :=
  fun st =>
    let '(seed, st') := fill_bytes R st (N.to_nat (scalar_len G)) in
    (poprf_server_new_from_seed seed [], st').

(** poprf.rs:218-222, [PoprfServer::new_with_key]. *)
Definition poprf_server_new_with_key (key : bytes) : res (PoprfServer CS) :=
  sk <- deserialize_scalar G key ;;
  let pk := elem_mul G (base_elem G) sk in
  Ok (mkPoprfServer sk pk).

(** poprf.rs:330-350, [PoprfServer::batch_blind_evaluate_prepare]. *)
Definition poprf_server_batch_blind_evaluate_prepare (self : PoprfServer CS)
    (blinded_elements : list (BlindedElement CS)) (info : option bytes)
  : res (PoprfServerBatchEvaluatePrepareResult CS) :=
  tweak <- compute_tweak (poprf_sk self) info ;;
  Ok (mkPoprfPrepareResult
        (map (fun '(blinded_element, tweak) =>
                inv <- invert_scalar G tweak ;;
                Ok (mkPrepared (mkEvaluation (elem_mul G (blinded_value blinded_element) inv))))
             (combine blinded_elements (repeat tweak (length blinded_elements))))
        (mkPreparedTweak tweak)).

(** poprf.rs:359-399, [PoprfServer::batch_blind_evaluate_finish]. *)
Definition poprf_server_batch_blind_evaluate_finish (R : Rng)
    (blinded_elements : list (BlindedElement CS))
    (prepared_evaluation_elements : list (PreparedEvaluationElement CS))
    (prepared_tweak : PoprfPreparedTweak CS)
  : rcomp (rng_state R) (PoprfServerBatchEvaluateResult CS) :=
  let g := base_elem G in
  let tweak := tweak_value prepared_tweak in
  let tweaked_key := elem_mul G g tweak in
  proof <~ generate_proof CS R tweak g tweaked_key
             (map (fun element => evaluation_value (prepared_value element))
                  prepared_evaluation_elements)
             (map blinded_value blinded_elements)
             Poprf ;;
  let messages := map (fun element => mkEvaluation (evaluation_value (prepared_value element)))
                      prepared_evaluation_elements in
  rret (Ok (mkPoprfServerBatchEvaluateResult messages proof)).

(** poprf.rs:289-320, [PoprfServer::batch_blind_evaluate]; the [unwrap] at
    line 315 turns [Error::Batch] into a panic. *)
Definition poprf_server_batch_blind_evaluate (self : PoprfServer CS) (R : Rng)
    (blinded_elements : list (BlindedElement CS)) (info : option bytes)
  : rcomp (rng_state R) (PoprfServerBatchEvaluateResult CS) :=
  p <~ rret (poprf_server_batch_blind_evaluate_prepare self blinded_elements info) ;;
  prepared_evaluation_elements <~ rret (collect (poprf_prepared_elements p)) ;;
  r <~ runwrap (poprf_server_batch_blind_evaluate_finish R blinded_elements
                  prepared_evaluation_elements (poprf_prepared_tweak p)) ;;
  rret (Ok (mkPoprfServerBatchEvaluateResult (poprf_batch_messages r) (poprf_batch_proof r))).

(** poprf.rs:251-280, [PoprfServer::blind_evaluate]. *)
Definition poprf_server_blind_evaluate (self : PoprfServer CS) (R : Rng)
    (blinded_element : BlindedElement CS) (info : option bytes)
  : rcomp (rng_state R) (PoprfServerEvaluateResult CS) :=
  p <~ rret (poprf_server_batch_blind_evaluate_prepare self [blinded_element] info) ;;
  prepared_evaluation_element <~ rret (next_unwrap (poprf_prepared_elements p)) ;;
  r <~ runwrap (poprf_server_batch_blind_evaluate_finish R [blinded_element]
                  [prepared_evaluation_element] (poprf_prepared_tweak p)) ;;
  message <~ rret (unwrap_opt (hd_error (poprf_batch_messages r))) ;;
  rret (Ok (mkPoprfServerEvaluateResult message (poprf_batch_proof r))).

(** poprf.rs:405-422, [PoprfServer::evaluate].  Note that [info] itself, not
    [info.unwrap_or_default()], goes to [server_evaluate_hash_input]. *)
Definition poprf_server_evaluate (self : PoprfServer CS) (input : bytes) (info : option bytes)
  : res bytes :=
  input_element <- hash_to_group CS input Poprf ;;
  if is_identity_elem G input_element then Err EInput else
  tweak <- compute_tweak (poprf_sk self) info ;;
  inv <- invert_scalar G tweak ;;
  let evaluated_element := elem_mul G input_element inv in
  let issued_element := serialize_elem G evaluated_element in
  server_evaluate_hash_input CS input info issued_element.

(** poprf.rs:425-427, [PoprfServer::get_public_key]. *)
Definition poprf_server_get_public_key (self : PoprfServer CS) : elem CS := poprf_pk self.

(** poprf.rs:442-473, [from_value_unchecked] and [value] of the two message
    types ("danger" feature). *)
Definition blinded_from_value_unchecked (value : elem CS) : BlindedElement CS := mkBlinded value.
Definition evaluation_from_value_unchecked (value : elem CS) : EvaluationElement CS :=
  mkEvaluation value.

End Poprf.
