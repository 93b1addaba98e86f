(** * Oprf: model of /repo/src/oprf.rs (base mode) *)
From Verif Require Export Common.

(** oprf.rs:47-54, [OprfClient]. *)
Record OprfClient (CS : CipherSuite) : Type := mkOprfClient { oprf_blind : scalar CS }.
Arguments mkOprfClient {CS} _.
Arguments oprf_blind {CS} _.

(** oprf.rs:65-72, [OprfServer]. *)
Record OprfServer (CS : CipherSuite) : Type := mkOprfServer { oprf_sk : scalar CS }.
Arguments mkOprfServer {CS} _.
Arguments oprf_sk {CS} _.

(** oprf.rs:234-243, [OprfClientBlindResult]. *)
Record OprfClientBlindResult (CS : CipherSuite) : Type := mkOprfClientBlindResult {
  oprf_state : OprfClient CS;
  oprf_message : BlindedElement CS
}.
Arguments mkOprfClientBlindResult {CS} _ _.
Arguments oprf_state {CS} _.
Arguments oprf_message {CS} _.

Section Oprf.
Context (CS : CipherSuite).
Local Notation G := (CSGroup CS).
Local Notation H := (CSHash CS).

(** oprf.rs:117-126, [OprfClient::deterministic_blind_unchecked_inner]; also
    the "danger" function at oprf.rs:109-114. *)
Definition oprf_client_deterministic_blind_unchecked (input : bytes) (blind : scalar CS)
  : res (OprfClientBlindResult CS) :=
  blinded_element <- deterministic_blind_unchecked CS input blind Oprf ;;
  Ok (mkOprfClientBlindResult (mkOprfClient blind) (mkBlinded blinded_element)).

(** oprf.rs:89-95, [OprfClient::blind]. *)
Definition oprf_client_blind (R : Rng) (input : bytes)
  : rcomp (rng_state R) (OprfClientBlindResult CS) :=
  blind <~ random_scalar G R ;;
  rret (oprf_client_deterministic_blind_unchecked input blind).

(** oprf.rs:269-283, the closure of [finalize_after_unblind]. *)
Definition oprf_finalize_one (input : bytes) (unblinded_element : elem CS) : res bytes :=
  il <- map_err (i2osp_2 (len input)) EInput ;;
  Ok (finalize_hash H
        (chain_update
           (chain_update
              (chain_update (chain_update (chain_update hash_new il) input) (elem_len_bytes CS))
              (serialize_elem G unblinded_element))
           STR_FINALIZE)).

(** oprf.rs:256-284, [finalize_after_unblind]: a lazy map over the items. *)
Definition oprf_finalize_after_unblind (items : list (bytes * elem CS)) : list (res bytes) :=
  map (fun '(input, unblinded_element) => oprf_finalize_one input unblinded_element) items.

(** oprf.rs:133-142, [OprfClient::finalize]. *)
Definition oprf_client_finalize (self : OprfClient CS) (input : bytes)
    (evaluation_element : EvaluationElement CS) : res bytes :=
  inv <- invert_scalar G (oprf_blind self) ;;
  let unblinded_element := elem_mul G (evaluation_value evaluation_element) inv in
  next_unwrap (oprf_finalize_after_unblind [(input, unblinded_element)]).

(** oprf.rs:192-195, [OprfServer::new_from_seed]. *)
Definition oprf_server_new_from_seed (seed info : bytes) : res (OprfServer CS) :=
  sk <- derive_key_internal CS seed info Oprf ;;
  Ok (mkOprfServer sk).

(** oprf.rs:166-170, [OprfServer::new]. *)
Definition oprf_server_new (R : Rng) : rcomp (rng_state R) (OprfServer CS) :=
  fun st =>
    let '(seed, st') := fill_bytes R st (N.to_nat (scalar_len G)) in
    (oprf_server_new_from_seed seed [], st').

(** oprf.rs:178-181, [OprfServer::new_with_key]. *)
Definition oprf_server_new_with_key (private_key_bytes : bytes) : res (OprfServer CS) :=
  sk <- deserialize_scalar G private_key_bytes ;;
  Ok (mkOprfServer sk).

(** oprf.rs:206-208, [OprfServer::blind_evaluate]. *)
Definition oprf_server_blind_evaluate (self : OprfServer CS) (blinded_element : BlindedElement CS)
  : EvaluationElement CS :=
  mkEvaluation (elem_mul G (blinded_value blinded_element) (oprf_sk self)).

(** oprf.rs:214-224, [OprfServer::evaluate]. *)
Definition oprf_server_evaluate (self : OprfServer CS) (input : bytes) : res bytes :=
  input_element <- hash_to_group CS input Oprf ;;
  if is_identity_elem G input_element then Err EInput else
  let evaluated_element := elem_mul G input_element (oprf_sk self) in
  let issued_element := serialize_elem G evaluated_element in
  server_evaluate_hash_input CS input None issued_element.

End Oprf.
