{
 "claims": [
  {
   "property": "C01",
   "status": "proved",
   "theorems": [
    "C01_oprf_correct"
   ],
   "note": ""
  },
  {
   "property": "C02",
   "status": "proved",
   "theorems": [
    "C02_voprf_correct"
   ],
   "note": ""
  },
  {
   "property": "C03",
   "status": "proved",
   "theorems": [
    "C03_poprf_correct"
   ],
   "note": ""
  },
  {
   "property": "C04",
   "status": "partial",
   "theorems": [
    "C04_omitted_info_partial",
    "C04_evaluate_none_collision",
    "C04_omitted_info_refuted"
   ],
   "note": "True of every call except PoprfServer::evaluate: evaluate(input, None) hashes no info part at all, so it differs from evaluate(input, Some(&[])) and from the oblivious run. Refuted by a witness; a general collision argument shows the outputs always differ unless the hash collides."
  },
  {
   "property": "C05",
   "status": "proved",
   "theorems": [
    "C05_voprf_batch_correct"
   ],
   "note": ""
  },
  {
   "property": "C06",
   "status": "proved",
   "theorems": [
    "C06_poprf_batch_correct"
   ],
   "note": ""
  },
  {
   "property": "C07",
   "status": "partial",
   "theorems": [
    "C07_voprf_server_limits",
    "C07_poprf_finish_limits",
    "C07_voprf_client_limits",
    "C07_poprf_client_limits",
    "C07_poprf_batch_evaluate_panics_refuted",
    "C07_poprf_batch_evaluate_limits_partial"
   ],
   "note": "The last clause (PoprfServer::batch_blind_evaluate does not panic) is false of the code: proved that it panics for every list longer than 65535."
  },
  {
   "property": "C08",
   "status": "proved",
   "theorems": [
    "C08_poprf_counts",
    "C08_poprf_wrong_inputs",
    "C08_voprf_counts",
    "C08_voprf_drops_clients"
   ],
   "note": "C08_voprf_drops_clients shows the VOPRF function silently truncates."
  },
  {
   "property": "C09",
   "status": "proved",
   "theorems": [
    "C09_single_is_batch_of_one",
    "C09_batch_is_prepare_finish"
   ],
   "note": ""
  },
  {
   "property": "C10",
   "status": "proved",
   "theorems": [
    "C10_voprf_accepts_iff",
    "C10_poprf_accepts_iff"
   ],
   "note": ""
  },
  {
   "property": "C11",
   "status": "proved",
   "theorems": [
    "C11_proof_is_GenerateProof"
   ],
   "note": ""
  },
  {
   "property": "C12",
   "status": "proved",
   "theorems": [
    "C12_voprf_extraction",
    "C12_poprf_extraction",
    "C12_extraction_case",
    "C12_voprf_sound",
    "C12_poprf_sound",
    "C12_voprf_single_sound",
    "C12_poprf_single_sound"
   ],
   "note": ""
  },
  {
   "property": "C13",
   "status": "proved",
   "theorems": [
    "C13_voprf_wrong_key",
    "C13_voprf_tampered",
    "C13_poprf_wrong_key_or_info",
    "C13_poprf_tampered"
   ],
   "note": ""
  },
  {
   "property": "C14",
   "status": "proved",
   "theorems": [
    "C14_public_key_matches",
    "C14_deserialize_mismatch",
    "C14_mismatched_server_rejected"
   ],
   "note": "Includes the proof that deserialize accepts mismatched halves and that proofs of such a server are rejected up to an exhibited hash event."
  },
  {
   "property": "C15",
   "status": "proved",
   "theorems": [
    "C15_oprf_derive",
    "C15_voprf_derive",
    "C15_poprf_derive"
   ],
   "note": ""
  },
  {
   "property": "C16",
   "status": "proved",
   "theorems": [
    "C16_derivation_injective",
    "C16_same_key",
    "C16_different_lengths_refuted"
   ],
   "note": "Equal-length seeds only, as stated; the different-length clause is proved false (C16_different_lengths_refuted), as stated in the property."
  },
  {
   "property": "C17",
   "status": "proved",
   "theorems": [
    "C17_tags_distinct"
   ],
   "note": ""
  },
  {
   "property": "C18",
   "status": "proved",
   "theorems": [
    "C18_outputs_injective",
    "C18_servers_injective"
   ],
   "note": ""
  },
  {
   "property": "C19",
   "status": "proved",
   "theorems": [
    "C19_challenge_injective",
    "C19_composite_injective",
    "C19_info_injective",
    "C19_transcripts_disjoint"
   ],
   "note": ""
  },
  {
   "property": "C20",
   "status": "proved",
   "theorems": [
    "C20_api_agreement",
    "C20_tweak_agreement",
    "C20_protocol_error_reachable"
   ],
   "note": ""
  },
  {
   "property": "C21",
   "status": "proved",
   "theorems": [
    "C21_blind_is_message_of",
    "C21_perfect_blinding",
    "C21_uniform_message"
   ],
   "note": ""
  },
  {
   "property": "C22",
   "status": "proved",
   "theorems": [
    "C22_output_independent_of_randomness"
   ],
   "note": ""
  },
  {
   "property": "C23",
   "status": "proved",
   "theorems": [
    "C23_round_trip",
    "C23_zero_fields_rejected"
   ],
   "note": ""
  },
  {
   "property": "C24",
   "status": "proved",
   "theorems": [
    "C24_total_and_safe",
    "C24_new_with_key_safe"
   ],
   "note": ""
  },
  {
   "property": "C25",
   "status": "proved",
   "theorems": [
    "C25_client_errors",
    "C25_server_errors",
    "C25_constructor_errors"
   ],
   "note": ""
  },
  {
   "property": "C26",
   "status": "proved",
   "theorems": [
    "C26_no_panic",
    "C26_secrets_nonzero"
   ],
   "note": ""
  },
  {
   "property": "C27",
   "status": "proved",
   "theorems": [
    "C27_oprf_limits",
    "C27_voprf_limits",
    "C27_poprf_limits",
    "C27_blind_accepts_every_length",
    "C27_derive_limits"
   ],
   "note": ""
  },
  {
   "property": "C28",
   "status": "proved",
   "theorems": [
    "C28_identity_inputs"
   ],
   "note": ""
  },
  {
   "property": "C29",
   "status": "proved",
   "theorems": [
    "C29_blind_draws_one_scalar",
    "C29_proofs_draw_one_scalar",
    "C29_new_draws_scalar_len"
   ],
   "note": ""
  },
  {
   "property": "C30",
   "status": "proved",
   "theorems": [
    "C30_nonce_reuse_reveals_key",
    "C30_voprf_simulation",
    "C30_poprf_simulation"
   ],
   "note": ""
  },
  {
   "property": "C31",
   "status": "proved",
   "theorems": [
    "C31_evaluation_is_permutation",
    "C31_verifiable_modes"
   ],
   "note": ""
  },
  {
   "property": "C32",
   "status": "proved",
   "theorems": [
    "C32_oprf_wire",
    "C32_voprf_wire",
    "C32_poprf_wire"
   ],
   "note": ""
  },
  {
   "property": "C33",
   "status": "proved",
   "theorems": [
    "C33_oprf_histories",
    "C33_voprf_histories",
    "C33_poprf_histories",
    "C33_oprf_progress",
    "C33_voprf_progress",
    "C33_poprf_progress"
   ],
   "note": ""
  },
  {
   "property": "C34",
   "status": "proved",
   "theorems": [
    "C34_voprf_hostile_network",
    "C34_poprf_hostile_network"
   ],
   "note": ""
  },
  {
   "property": "C35",
   "status": "proved",
   "theorems": [
    "C35_dropped_values_are_wiped"
   ],
   "note": ""
  },
  {
   "property": "C36",
   "status": "proved",
   "theorems": [
    "C36_serde_validates",
    "C36_serde_and_bytes_agree"
   ],
   "note": ""
  },
  {
   "property": "C37",
   "status": "proved",
   "theorems": [
    "C37_zero_blind_message",
    "C37_zero_blind_panics",
    "C37_zero_blind_forgets_key",
    "C37_honest_server_answers",
    "C37_ristretto255",
    "C37_elliptic_curve"
   ],
   "note": ""
  },
  {
   "property": "C38",
   "status": "proved",
   "theorems": [
    "C38_ristretto_laws",
    "C38_curve_laws",
    "C38_ristretto_encodings",
    "C38_curve_encodings",
    "C38_ristretto_random",
    "C38_curve_random"
   ],
   "note": ""
  },
  {
   "property": "C39",
   "status": "proved",
   "theorems": [
    "C39_ristretto255",
    "C39_elliptic_curve"
   ],
   "note": ""
  },
  {
   "property": "C40",
   "status": "proved",
   "theorems": [
    "C40_documented_contract_panics",
    "C40_builtin_groups_do_not_panic"
   ],
   "note": ""
  },
  {
   "property": "C41",
   "status": "proved",
   "theorems": [
    "C41_wire_format"
   ],
   "note": ""
  },
  {
   "property": "C42",
   "status": "proved",
   "theorems": [
    "C42_ristretto_hash",
    "C42_curve_hash"
   ],
   "note": ""
  },
  {
   "property": "C43",
   "status": "proved",
   "theorems": [
    "C43_ristretto255_canonical",
    "C43_elliptic_curve_encodings",
    "C43_elliptic_curve_malleable"
   ],
   "note": ""
  },
  {
   "property": "C44",
   "status": "proved",
   "theorems": [
    "C44_values",
    "C44_deterministic_blind",
    "C44_derive_key",
    "C44_no_panic",
    "C44_server_secrets_nonzero"
   ],
   "note": ""
  },
  {
   "property": "C45",
   "status": "proved",
   "theorems": [
    "C45_curve_scalars",
    "C45_curve_messages",
    "C45_ristretto_scalars",
    "C45_ristretto_messages"
   ],
   "note": ""
  },
  {
   "property": "C46",
   "status": "proved",
   "theorems": [
    "C46_p256_elements",
    "C46_p384_elements",
    "C46_p521_elements"
   ],
   "note": "P256-SHA256, P384-SHA384, P521-SHA512. The curve arithmetic of the crates p256, p384, p521 is modelled by affine formulas (NistCurve.v); primality of p and n and the order of the base point are checked by certificates."
  },
  {
   "property": "C47",
   "status": "proved",
   "theorems": [
    "C47_p256_hash",
    "C47_p384_hash",
    "C47_p521_hash"
   ],
   "note": "P256-SHA256, P384-SHA384, P521-SHA512."
  },
  {
   "property": "C48",
   "status": "proved",
   "theorems": [
    "C48_p256_protocols",
    "C48_p256_lawful",
    "C48_p384_protocols",
    "C48_p384_lawful",
    "C48_p521_protocols",
    "C48_p521_lawful"
   ],
   "note": "P256-SHA256, P384-SHA384, P521-SHA512; SHA-2 is modelled from FIPS 180-4 (Sha2.v)."
  },
  {
   "property": "C49",
   "status": "proved",
   "theorems": [
    "C49_ristretto_elements"
   ],
   "note": "curve25519-dalek's ristretto255 is modelled from RFC 9496 (Rist255.v) with affine coordinates; an element is represented by the point its encoding decodes to. Primality and the order of the base point are checked by certificates."
  },
  {
   "property": "C50",
   "status": "proved",
   "theorems": [
    "C50_ristretto_hash"
   ],
   "note": ""
  },
  {
   "property": "C51",
   "status": "proved",
   "theorems": [
    "C51_ristretto_protocols",
    "C51_ristretto_lawful"
   ],
   "note": "SHA-512 is modelled from FIPS 180-4 (Sha2.v)."
  },
  {
   "property": "C52",
   "status": "proved",
   "theorems": [
    "C52_voprf_forgery",
    "C52_poprf_forgery"
   ],
   "note": "Random oracle model: the hash to scalar is any function, probability is counting over all functions on any finite set of strings that includes those that can be queried. HashToGroup and the output hash are the suite's."
  },
  {
   "property": "C53",
   "status": "proved",
   "theorems": [
    "C53_poprf_cancelling_errors",
    "C53_builtin_numbers",
    "C53_voprf_batch_forgery",
    "C53_poprf_batch_forgery",
    "C53_voprf_cancelling_errors",
    "C53_voprf_wrong_accepted",
    "C53_voprf_average"
   ],
   "note": "The key is fixed before the game (as for a client that got the public key beforehand). C53_voprf_cancelling_errors and C53_poprf_cancelling_errors show the structure that makes the bound a power of Q. C53_builtin_numbers puts numbers in for the four built-in suites (2^80 hash queries; one item, and two)."
  },
  {
   "property": "C54",
   "status": "proved",
   "theorems": [
    "C54_oprf_unpredictable",
    "C54_voprf_unpredictable",
    "C54_poprf_unpredictable"
   ],
   "note": "The output hash is modelled as a function independent of HashToGroup and HashToScalar (which in the concrete suites are built from the same hash on strings with other prefixes): those two are arbitrary and fixed. C63 makes a one-more Diffie-Hellman solver of this."
  },
  {
   "property": "C55",
   "status": "proved",
   "theorems": [
    "C55_builtin_suites",
    "C55_voprf_zero_knowledge",
    "C55_poprf_zero_knowledge",
    "C55_choices",
    "C55_tapes",
    "C55_builtin_numbers"
   ],
   "note": "The RNG is any with states that yield given non-zero scalars (C55_tapes: one reading a tape, for the curve and ristretto groups); nonces are counted uniformly, C45 bounds the bias of ristretto255's sampling. C55_choices: the simulator's runs are as many as the fraction's denominator says. C30 is the exact statement for one proof. C55_builtin_suites: the four built-in suites meet the hypotheses of C52 to C56 (an enumeration of the scalars, an RNG that yields given scalars, the suite laws)."
  },
  {
   "property": "C56",
   "status": "proved",
   "theorems": [
    "C56_oprf_oblivious",
    "C56_voprf_oblivious",
    "C56_poprf_oblivious"
   ],
   "note": "The verdict of a session is success or the error; outputs are not shown (with the server's key they are what the server can compute itself for each of the two inputs, C01-C03, C22; a server that uses several keys can tell sessions apart if it later sees their outputs, in any OPRF). The base mode has no batches: an answer to many sessions is an answer to each."
  },
  {
   "property": "C57",
   "status": "proved",
   "theorems": [
    "C57_oprf_pseudorandom",
    "C57_voprf_pseudorandom",
    "C57_poprf_pseudorandom",
    "C57_oprf_prf"
   ],
   "note": "The random function takes the input and the info as the caller passed it (None and Some of the empty string differ in the hash, C04). How often a program with a verifiable key or blind_evaluate can cross is a computational question (one-more Diffie-Hellman), not formalised; for base mode with evaluate only, C57_oprf_prf bounds it without assumption."
  },
  {
   "property": "C58",
   "status": "proved",
   "theorems": [
    "C58_exact_collections",
    "C58_voprf_covered_outputs",
    "C58_poprf_covered_outputs",
    "C58_voprf_uncovered_outputs",
    "C58_poprf_uncovered_outputs",
    "C58_servers_two_traversals",
    "C58_clients_no_panic"
   ],
   "note": "len() and size_hint() of an iterator are taken to give the same number; items are finitely many. The uncovered theorems show the limits of the guarantee with the code as it is: a collection that claims fewer items than it yields gets outputs for messages no proof covers."
  },
  {
   "property": "C59",
   "status": "proved",
   "theorems": [
    "C59_oprf_unlinkable",
    "C59_voprf_unlinkable",
    "C59_poprf_unlinkable"
   ],
   "note": "Exact equality of counts over all sequences of nonzero blinding factors, for arbitrary servers and judges that ignore the order of the outputs. Runs whose answers are not all made with one scalar are not counted; C59_two_keys_case shows that base-mode servers can link then."
  },
  {
   "property": "C60",
   "status": "proved",
   "theorems": [
    "C60_client_results",
    "C60_server_results",
    "C60_blind_work",
    "C60_finalize_work",
    "C60_batch_finalize_work",
    "C60_new_work",
    "C60_blind_evaluate_work",
    "C60_batch_blind_evaluate_work",
    "C60_evaluate_work"
   ],
   "note": "C60_client_results and C60_server_results: the traced functions compute what the functions of the model compute. What happens inside an operation of the group and hash crates, and machine-level timing, are outside the model; drawing a scalar is one event (its rejection loop depends on the RNG only). Blinding factors are nonzero, as in all clients made by blind."
  },
  {
   "property": "C61",
   "status": "proved",
   "theorems": [
    "C61_client_cost",
    "C61_batch_finalize_cost",
    "C61_server_cost",
    "C61_new_cost"
   ],
   "note": "Counts of events of the traced functions of C60; exact for calls that succeed, an upper bound for all."
  },
  {
   "property": "C62",
   "status": "proved",
   "theorems": [
    "C62_coherent",
    "C62_equal_bytes"
   ],
   "note": "The derived implementations are written out as derive_where generates them; what the back ends implement for their element and scalar types is a hypothesis (each derived trait exists only if they implement it)."
  },
  {
   "property": "C63",
   "status": "proved",
   "theorems": [
    "C63_oprf_one_more",
    "C63_solver_work",
    "C63_voprf_one_more",
    "C63_poprf_one_more",
    "C63_voprf_solver",
    "C63_poprf_solver"
   ],
   "note": "The output hash is a random function, independent of the other two hashes. Not shown: that the one-more Diffie-Hellman problem is hard (it is an assumption about the group). In base mode the solver is given as a program with access to multiplications only. So it is in the verifiable mode (C63_voprf_solver), where the hash to scalar is random too and the proofs are made up as in C55; the two bounds of that theorem are for a fixed function of the other kind each, and add up on average over both. C63_poprf_solver is the same for POPRF: there the solver multiplies by the inverse of the key plus a scalar of the caller's choice, which is a stronger problem than one-more Diffie-Hellman (it must find one more multiple for the scalar the info string hashes to)."
  },
  {
   "property": "C64",
   "status": "proved",
   "theorems": [
    "C64_derived_keys",
    "C64_uniform_keys",
    "C64_new_servers",
    "C64_builtin_numbers"
   ],
   "note": "Hash to scalar is a random function; hash to group and the output hash are arbitrary and fixed. Seeds of different lengths are excluded, since they can give the same key (C16). The program gets the keys themselves, so what it does with servers that hold them is covered as far as they can be run with the hash function it has."
  },
  {
   "property": "C65",
   "status": "proved",
   "theorems": [
    "C65_builtin_numbers",
    "C65_seeded_server",
    "C65_new_server"
   ],
   "note": "The two hash functions are random and independent, hash to group is arbitrary; a fresh server is the case of a uniform seed of Ns bytes. The finite sets of strings on which the functions vary are chosen in turn (hash to scalar first); any larger sets do. Stated for evaluate; with blind_evaluate the answers are multiples of the client's element and no longer random (what can be had then is in C57 and C63)."
  }
 ]
}