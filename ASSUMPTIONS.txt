204 theorems of MANIFEST.json; lines of Print Assumptions other than "Closed under the global context": 0
C01_oprf_correct: Closed under the global context
C02_voprf_correct: Closed under the global context
C03_poprf_correct: Closed under the global context
C04_omitted_info_partial: Closed under the global context
C04_evaluate_none_collision: Closed under the global context
C04_omitted_info_refuted: Closed under the global context
C05_voprf_batch_correct: Closed under the global context
C06_poprf_batch_correct: Closed under the global context
C07_voprf_server_limits: Closed under the global context
C07_poprf_finish_limits: Closed under the global context
C07_voprf_client_limits: Closed under the global context
C07_poprf_client_limits: Closed under the global context
C07_poprf_batch_evaluate_panics_refuted: Closed under the global context
C07_poprf_batch_evaluate_limits_partial: Closed under the global context
C08_poprf_counts: Closed under the global context
C08_poprf_wrong_inputs: Closed under the global context
C08_voprf_counts: Closed under the global context
C08_voprf_drops_clients: Closed under the global context
C09_single_is_batch_of_one: Closed under the global context
C09_batch_is_prepare_finish: Closed under the global context
C10_voprf_accepts_iff: Closed under the global context
C10_poprf_accepts_iff: Closed under the global context
C11_proof_is_GenerateProof: Closed under the global context
C12_voprf_extraction: Closed under the global context
C12_poprf_extraction: Closed under the global context
C12_extraction_case: Closed under the global context
C12_voprf_sound: Closed under the global context
C12_poprf_sound: Closed under the global context
C12_voprf_single_sound: Closed under the global context
C12_poprf_single_sound: Closed under the global context
C13_voprf_wrong_key: Closed under the global context
C13_voprf_tampered: Closed under the global context
C13_poprf_wrong_key_or_info: Closed under the global context
C13_poprf_tampered: Closed under the global context
C14_public_key_matches: Closed under the global context
C14_deserialize_mismatch: Closed under the global context
C14_mismatched_server_rejected: Closed under the global context
C15_oprf_derive: Closed under the global context
C15_voprf_derive: Closed under the global context
C15_poprf_derive: Closed under the global context
C16_derivation_injective: Closed under the global context
C16_same_key: Closed under the global context
C16_different_lengths_refuted: Closed under the global context
C17_tags_distinct: Closed under the global context
C18_outputs_injective: Closed under the global context
C18_servers_injective: Closed under the global context
C19_challenge_injective: Closed under the global context
C19_composite_injective: Closed under the global context
C19_info_injective: Closed under the global context
C19_transcripts_disjoint: Closed under the global context
C20_api_agreement: Closed under the global context
C20_tweak_agreement: Closed under the global context
C20_protocol_error_reachable: Closed under the global context
C21_blind_is_message_of: Closed under the global context
C21_perfect_blinding: Closed under the global context
C21_uniform_message: Closed under the global context
C22_output_independent_of_randomness: Closed under the global context
C23_round_trip: Closed under the global context
C23_zero_fields_rejected: Closed under the global context
C24_total_and_safe: Closed under the global context
C24_new_with_key_safe: Closed under the global context
C25_client_errors: Closed under the global context
C25_server_errors: Closed under the global context
C25_constructor_errors: Closed under the global context
C26_no_panic: Closed under the global context
C26_secrets_nonzero: Closed under the global context
C27_oprf_limits: Closed under the global context
C27_voprf_limits: Closed under the global context
C27_poprf_limits: Closed under the global context
C27_blind_accepts_every_length: Closed under the global context
C27_derive_limits: Closed under the global context
C28_identity_inputs: Closed under the global context
C29_blind_draws_one_scalar: Closed under the global context
C29_proofs_draw_one_scalar: Closed under the global context
C29_new_draws_scalar_len: Closed under the global context
C30_nonce_reuse_reveals_key: Closed under the global context
C30_voprf_simulation: Closed under the global context
C30_poprf_simulation: Closed under the global context
C31_evaluation_is_permutation: Closed under the global context
C31_verifiable_modes: Closed under the global context
C32_oprf_wire: Closed under the global context
C32_voprf_wire: Closed under the global context
C32_poprf_wire: Closed under the global context
C33_oprf_histories: Closed under the global context
C33_voprf_histories: Closed under the global context
C33_poprf_histories: Closed under the global context
C33_oprf_progress: Closed under the global context
C33_voprf_progress: Closed under the global context
C33_poprf_progress: Closed under the global context
C34_voprf_hostile_network: Closed under the global context
C34_poprf_hostile_network: Closed under the global context
C35_dropped_values_are_wiped: Closed under the global context
C36_serde_validates: Closed under the global context
C36_serde_and_bytes_agree: Closed under the global context
C37_zero_blind_message: Closed under the global context
C37_zero_blind_panics: Closed under the global context
C37_zero_blind_forgets_key: Closed under the global context
C37_honest_server_answers: Closed under the global context
C37_ristretto255: Closed under the global context
C37_elliptic_curve: Closed under the global context
C38_ristretto_laws: Closed under the global context
C38_curve_laws: Closed under the global context
C38_ristretto_encodings: Closed under the global context
C38_curve_encodings: Closed under the global context
C38_ristretto_random: Closed under the global context
C38_curve_random: Closed under the global context
C39_ristretto255: Closed under the global context
C39_elliptic_curve: Closed under the global context
C40_documented_contract_panics: Closed under the global context
C40_builtin_groups_do_not_panic: Closed under the global context
C41_wire_format: Closed under the global context
C42_ristretto_hash: Closed under the global context
C42_curve_hash: Closed under the global context
C43_ristretto255_canonical: Closed under the global context
C43_elliptic_curve_encodings: Closed under the global context
C43_elliptic_curve_malleable: Closed under the global context
C44_values: Closed under the global context
C44_deterministic_blind: Closed under the global context
C44_derive_key: Closed under the global context
C44_no_panic: Closed under the global context
C44_server_secrets_nonzero: Closed under the global context
C45_curve_scalars: Closed under the global context
C45_curve_messages: Closed under the global context
C45_ristretto_scalars: Closed under the global context
C45_ristretto_messages: Closed under the global context
C46_p256_elements: Closed under the global context
C46_p384_elements: Closed under the global context
C46_p521_elements: Closed under the global context
C47_p256_hash: Closed under the global context
C47_p384_hash: Closed under the global context
C47_p521_hash: Closed under the global context
C48_p256_protocols: Closed under the global context
C48_p256_lawful: Closed under the global context
C48_p384_protocols: Closed under the global context
C48_p384_lawful: Closed under the global context
C48_p521_protocols: Closed under the global context
C48_p521_lawful: Closed under the global context
C49_ristretto_elements: Closed under the global context
C50_ristretto_hash: Closed under the global context
C51_ristretto_protocols: Closed under the global context
C51_ristretto_lawful: Closed under the global context
C52_voprf_forgery: Closed under the global context
C52_poprf_forgery: Closed under the global context
C53_poprf_cancelling_errors: Closed under the global context
C53_builtin_numbers: Closed under the global context
C53_voprf_batch_forgery: Closed under the global context
C53_poprf_batch_forgery: Closed under the global context
C53_voprf_cancelling_errors: Closed under the global context
C53_voprf_wrong_accepted: Closed under the global context
C53_voprf_average: Closed under the global context
C54_oprf_unpredictable: Closed under the global context
C54_voprf_unpredictable: Closed under the global context
C54_poprf_unpredictable: Closed under the global context
C55_builtin_suites: Closed under the global context
C55_voprf_zero_knowledge: Closed under the global context
C55_poprf_zero_knowledge: Closed under the global context
C55_choices: Closed under the global context
C55_tapes: Closed under the global context
C55_builtin_numbers: Closed under the global context
C56_oprf_oblivious: Closed under the global context
C56_voprf_oblivious: Closed under the global context
C56_poprf_oblivious: Closed under the global context
C57_oprf_pseudorandom: Closed under the global context
C57_voprf_pseudorandom: Closed under the global context
C57_poprf_pseudorandom: Closed under the global context
C57_oprf_prf: Closed under the global context
C58_exact_collections: Closed under the global context
C58_voprf_covered_outputs: Closed under the global context
C58_poprf_covered_outputs: Closed under the global context
C58_voprf_uncovered_outputs: Closed under the global context
C58_poprf_uncovered_outputs: Closed under the global context
C58_servers_two_traversals: Closed under the global context
C58_clients_no_panic: Closed under the global context
C59_oprf_unlinkable: Closed under the global context
C59_voprf_unlinkable: Closed under the global context
C59_poprf_unlinkable: Closed under the global context
C60_client_results: Closed under the global context
C60_server_results: Closed under the global context
C60_blind_work: Closed under the global context
C60_finalize_work: Closed under the global context
C60_batch_finalize_work: Closed under the global context
C60_new_work: Closed under the global context
C60_blind_evaluate_work: Closed under the global context
C60_batch_blind_evaluate_work: Closed under the global context
C60_evaluate_work: Closed under the global context
C61_client_cost: Closed under the global context
C61_batch_finalize_cost: Closed under the global context
C61_server_cost: Closed under the global context
C61_new_cost: Closed under the global context
C62_coherent: Closed under the global context
C62_equal_bytes: Closed under the global context
C63_oprf_one_more: Closed under the global context
C63_solver_work: Closed under the global context
C63_voprf_one_more: Closed under the global context
C63_poprf_one_more: Closed under the global context
C63_voprf_solver: Closed under the global context
C63_poprf_solver: Closed under the global context
C64_derived_keys: Closed under the global context
C64_uniform_keys: Closed under the global context
C64_new_servers: Closed under the global context
C64_builtin_numbers: Closed under the global context
C65_builtin_numbers: Closed under the global context
C65_seeded_server: Closed under the global context
C65_new_server: Closed under the global context
