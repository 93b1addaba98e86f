"""Mutants for mutate.py: realistic bugs in the model."""
MUTANTS = {}
def m(name, file, definition, old, new, edit, claim, **kw):
    MUTANTS[name] = dict(file=file, old=old, new=new, edit=edit, claim=claim, **{"def": definition}, **kw)

# Common.v
m("dst_label_order", "Common.v", "dst_new", "let d1 := par_1 ++ par_2 in", "let d1 := par_2 ++ par_1 in",
  "tag is contextString || label", "C17: tags are label || context; C01: RFC output")
m("mode_same", "Common.v", "mode_to_u8", "Voprf => x01 | Poprf => x02", "Voprf => x01 | Poprf => x01",
  "POPRF uses the VOPRF mode byte", "C17: tags never collide across modes")
m("batch_limit_off_by_one", "Common.v", "compute_composites", "if negb (len c_slice <=? u16_max)%N then Err EBatch",
  "if negb (len c_slice <? u16_max)%N then Err EBatch", "65535 items rejected", "C05: batches of up to 65535 are accepted; C07")
m("batch_limit_missing", "Common.v", "compute_composites", "  if negb (len c_slice <=? u16_max)%N then Err EBatch else\n", "",
  "no size limit", "C07: more than 65535 items is Error::Batch")
m("batch_len_check_missing", "Common.v", "compute_composites", "  if negb (len c_slice =? len d_slice)%N then Err EBatch else\n", "",
  "no equal-length check", "C07: lists of different length are Error::Batch")
m("composite_index_dropped", "Common.v", "composite_step", "u16_to_be_bytes i;", "", "index not hashed",
  "C19: the composite transcript determines the index; C10")
m("composite_di_dropped", "Common.v", "composite_step", "elem_len_bytes; ci; elem_len_bytes; di; STR_COMPOSITE", "elem_len_bytes; ci; STR_COMPOSITE",
  "D_i not hashed", "C19: composite transcript determines D_i; C10")
m("composite_swap", "Common.v", "composite_step", "elem_len_bytes; ci; elem_len_bytes; di;", "elem_len_bytes; di; elem_len_bytes; ci;",
  "C_i and D_i swapped in the weight hash", "C10: RFC weights; C11")
m("composite_z_adds_c", "Common.v", "composite_step", "elem_add G (elem_mul G d w) z", "elem_add G (elem_mul G c w) z",
  "Z accumulates C", "C10: verification equation; C12")
m("composite_z_from_key_wrong", "Common.v", "compute_composites", "| Some k => elem_mul G m k", "| Some k => m",
  "prover's Z is M", "C02: honest proofs accepted; C11")
m("challenge_no_t3", "Common.v", "challenge_input", "elem_len_bytes; a2; elem_len_bytes; a3; STR_CHALLENGE", "elem_len_bytes; a2; STR_CHALLENGE",
  "t3 not hashed", "C12: soundness; C19: challenge transcript determines t3")
m("challenge_no_b", "Common.v", "challenge_input", "[elem_len_bytes; bm; elem_len_bytes; a0;", "[elem_len_bytes; a0;",
  "public key not hashed", "C13: proofs do not verify for another key; C19; C10")
m("challenge_no_z", "Common.v", "challenge_input", "elem_len_bytes; a1;\n", "\n", "Z not hashed", "C12; C19")
m("proof_s_plus", "Common.v", "generate_proof", "let s := scalar_sub G r (scalar_mul G c k) in", "let s := scalar_add G r (scalar_mul G c k) in",
  "s = r + c*k", "C02: honest proofs accepted; C11")
m("proof_no_r", "Common.v", "generate_proof", "  r <~ random_scalar G R ;;\n", "  let r := c_dummy CS in\n",
  "constant nonce", "C29: a proof draws one random scalar; C11") 
del MUTANTS["proof_no_r"]
m("proof_t3_wrong", "Common.v", "generate_proof", "let t3 := elem_mul G m r in", "let t3 := elem_mul G a r in",
  "t3 from the generator", "C02; C11")
m("proof_const_nonce", "Common.v", "generate_proof", "  r <~ random_scalar G R ;;\n", "  r <~ rret (Ok k) ;;\n",
  "nonce is the key, no randomness drawn", "C29: a proof draws exactly one random scalar; C11; C30")
m("verify_ignores_c", "Common.v", "verify_proof", "if scalar_ct_eq G c (c_scalar proof) then Ok tt else Err EProofVerification", "Ok tt",
  "verification always succeeds", "C10: accepts exactly the RFC equation; C12; C34")
m("verify_wrong_error", "Common.v", "verify_proof", "then Ok tt else Err EProofVerification", "then Ok tt else Err EProtocol",
  "wrong error", "C10: Error::ProofVerification; C25")
m("verify_t2_uses_m", "Common.v", "verify_proof", "let t2 := elem_add G (elem_mul G a (s_scalar proof)) (elem_mul G b (c_scalar proof)) in",
  "let t2 := elem_add G (elem_mul G m (s_scalar proof)) (elem_mul G b (c_scalar proof)) in", "t2 uses M instead of the generator", "C10; C12")
m("verify_swapped_scalars", "Common.v", "verify_proof", "let t3 := elem_add G (elem_mul G m (s_scalar proof)) (elem_mul G z (c_scalar proof)) in",
  "let t3 := elem_add G (elem_mul G m (c_scalar proof)) (elem_mul G z (s_scalar proof)) in", "c and s swapped in t3", "C10; C02")
m("derive_no_zero_check", "Common.v", "derive_key_loop", "if negb (is_zero_scalar G sk) then Ok sk\n      else derive_key_loop seed info_len info dst rest", "Ok sk",
  "zero candidate accepted", "C15: key is never zero; C14")
m("derive_counter_127", "Common.v", "u8_range_inclusive", "(seq 0 256)", "(seq 0 255)", "counter stops at 254", "C15: counters 0..255")
m("derive_counter_from_1", "Common.v", "u8_range_inclusive", "(seq 0 256)", "(seq 1 255)", "counter starts at 1", "C15")
m("derive_counter_first", "Common.v", "derive_key_loop", "[seed; info_len; info; u8_to_be_bytes counter]", "[u8_to_be_bytes counter; seed; info_len; info]",
  "counter hashed first", "C15: RFC DeriveKeyPair")
m("derive_no_info_len", "Common.v", "derive_key_loop", "[seed; info_len; info; u8_to_be_bytes counter]", "[seed; info; u8_to_be_bytes counter]",
  "info length not hashed", "C15; C16: (seed, info) pairs are separated")
m("derive_wrong_error", "Common.v", "derive_key_internal", "info_len <- map_err (i2osp_2 (len info)) EDeriveKeyPair ;;", "info_len <- map_err (i2osp_2 (len info)) EInfo ;;",
  "wrong error", "C15: Error::DeriveKeyPair for long info; C25")
m("derive_exhausted_error", "Common.v", "derive_key_loop", "| [] => Err EProtocol", "| [] => Err EDeriveKeyPair", "wrong error on exhaustion", "C15: Error::Protocol exactly if all are zero")
m("keypair_pk_wrong", "Common.v", "derive_keypair", "let pk_s := elem_mul G (base_elem G) sk_s in", "let pk_s := base_elem G in", "public key is the generator", "C14: public key = key*generator")
m("h2g_wrong_label", "Common.v", "hash_to_group", "dst <- dst_new STR_HASH_TO_GROUP mode ;;", "dst <- dst_new STR_HASH_TO_SCALAR mode ;;", "HashToGroup under the HashToScalar tag", "C17; C01: RFC HashToGroup")
m("h2g_ignores_mode", "Common.v", "hash_to_group", "dst <- dst_new STR_HASH_TO_GROUP mode ;;", "dst <- dst_new STR_HASH_TO_GROUP Oprf ;;", "mode ignored", "C02; C17")
m("eval_hash_no_input_len", "Common.v", "server_evaluate_hash_input", "let hash := chain_update (chain_update hash_new il) input in", "let hash := chain_update hash_new input in",
  "input length not hashed", "C18: finalize hash input is injective; C01")
m("eval_hash_no_label", "Common.v", "server_evaluate_hash_input", "(chain_update (chain_update (chain_update hash el) issued_element) STR_FINALIZE)", "(chain_update (chain_update hash el) issued_element)",
  "\"Finalize\" not hashed", "C01: evaluate equals finalize")
m("eval_info_after_elem", "Common.v", "server_evaluate_hash_input", "Ok (chain_update (chain_update hash nl) info)", "Ok (chain_update (chain_update hash info) nl)", "info and its length swapped", "C03; C18")
m("seed_dst_label", "Common.v", "compute_composites", "seed_dst <- dst_new STR_SEED mode ;;", "seed_dst <- dst_new STR_HASH_TO_SCALAR mode ;;", "seed tag wrong", "C11: RFC GenerateProof; C17")
m("seed_len_le", "Base.v", "u16_to_be_bytes", "[byte_of_N ((n / 256) mod 256); byte_of_N (n mod 256)]", "[byte_of_N (n mod 256); byte_of_N ((n / 256) mod 256)]", "little-endian lengths", "C01: I2OSP is big-endian; C15")
m("i2osp_limit", "Base.v", "i2osp_2", "if (input <=? u16_max)%N", "if (input <? u16_max)%N", "65535 rejected", "C27: Error::Input exactly when longer than 65535")
m("i2osp_no_limit", "Base.v", "i2osp_2", "if (input <=? u16_max)%N then Ok (u16_to_be_bytes input) else Err II2osp", "Ok (u16_to_be_bytes input)", "lengths truncated modulo 65536", "C27; C18")

# Oprf.v
m("oprf_no_invert", "Oprf.v", "oprf_client_finalize", "let unblinded_element := elem_mul G (evaluation_value evaluation_element) inv in", "let unblinded_element := elem_mul G (evaluation_value evaluation_element) (oprf_blind self) in", "multiplies by blind instead of its inverse", "C01; C22")
m("oprf_evaluate_no_identity_check", "Oprf.v", "oprf_server_evaluate", "  if is_identity_elem G input_element then Err EInput else\n", "", "identity not rejected", "C28: evaluate returns Error::Input when the input hashes to the identity")
m("oprf_evaluate_wrong_mode", "Oprf.v", "oprf_server_evaluate", "input_element <- hash_to_group CS input Oprf ;;", "input_element <- hash_to_group CS input Voprf ;;", "wrong mode", "C01")
m("oprf_blind_state_mismatch", "Oprf.v", "oprf_client_deterministic_blind_unchecked", "Ok (mkOprfClientBlindResult (mkOprfClient blind) (mkBlinded blinded_element))",
  "Ok (mkOprfClientBlindResult (mkOprfClient (scalar_add G blind blind)) (mkBlinded blinded_element))", "stored blind differs from the used one", "C01; C22")
m("oprf_new_zero_seed", "Oprf.v", "oprf_server_new", "(oprf_server_new_from_seed seed [], st')", "(oprf_server_new_from_seed [] [], st')", "seed ignored", "C14/C15: new uses the RNG bytes as seed; C29", tightened=["C29_new_draws_scalar_len"], note="rerun: the first run was not killed by a property theorem, so C29 now says new is new_from_seed of the drawn bytes")
m("oprf_new_info", "Oprf.v", "oprf_server_new", "(oprf_server_new_from_seed seed [], st')", "(oprf_server_new_from_seed seed seed, st')", "info = seed in new", "C15; C29")
m("oprf_new_reuses_rng", "Oprf.v", "oprf_server_new", "(oprf_server_new_from_seed seed [], st')", "(oprf_server_new_from_seed seed [], st)", "RNG state not advanced", "C29: new draws ScalarLen bytes")
m("oprf_blind_evaluate_identity", "Oprf.v", "oprf_server_blind_evaluate", "mkEvaluation (elem_mul G (blinded_value blinded_element) (oprf_sk self))", "mkEvaluation (blinded_value blinded_element)", "key not applied", "C01")
m("oprf_seed_mode", "Oprf.v", "oprf_server_new_from_seed", "derive_key_internal CS seed info Oprf", "derive_key_internal CS seed info Voprf", "wrong mode in key derivation", "C15; C16")

# Voprf.v
m("voprf_unblind_skip_verify", "Voprf.v", "verifiable_unblind", "  _ <- verify_proof CS g pk blinded_elements evaluation_elements proof Voprf ;;\n", "", "proof not checked", "C10; C12; C34")
m("voprf_verify_swapped", "Voprf.v", "verifiable_unblind", "verify_proof CS g pk blinded_elements evaluation_elements proof Voprf", "verify_proof CS g pk evaluation_elements blinded_elements proof Voprf", "C and D swapped", "C02; C10")
m("voprf_verify_wrong_mode", "Voprf.v", "verifiable_unblind", "blinded_elements evaluation_elements proof Voprf", "blinded_elements evaluation_elements proof Poprf", "mode", "C02; C10")
m("voprf_finish_uses_sk_pk", "Voprf.v", "voprf_server_batch_blind_evaluate_finish", "generate_proof CS R (voprf_sk self) g (voprf_pk self)", "generate_proof CS R (voprf_sk self) g g", "public key replaced by generator in the proof", "C02; C11")
m("voprf_unblind_no_inv", "Voprf.v", "voprf_unblind_one", "Ok (elem_mul G (evaluation_value x) inv)", "Ok (evaluation_value x)", "not unblinded", "C02; C05")
m("voprf_prepare_reversed", "Voprf.v", "voprf_server_batch_blind_evaluate_prepare", "(combine blinded_elements (repeat (voprf_sk self) (length blinded_elements)))", "(combine (rev blinded_elements) (repeat (voprf_sk self) (length blinded_elements)))", "batch order reversed", "C05: order of outputs")
m("voprf_prepare_drop_last", "Voprf.v", "voprf_server_batch_blind_evaluate_prepare", "(combine blinded_elements (repeat (voprf_sk self) (length blinded_elements)))", "(combine blinded_elements (repeat (voprf_sk self) (length blinded_elements - 1)))", "last element dropped", "C05; C09")
m("voprf_single_unwrap_missing", "Voprf.v", "voprf_server_blind_evaluate", "r <~ runwrap (voprf_server_batch_blind_evaluate_finish self R [blinded_element]", "r <~ (voprf_server_batch_blind_evaluate_finish self R [blinded_element]", "error returned instead of unwrap", "none: unobservable, the error cannot happen for one element", note="expected survivor or a proof-script failure only")
m("voprf_eval_no_identity_check", "Voprf.v", "voprf_server_evaluate", "  if is_identity_elem G input_element then Err EInput else\n", "", "identity not rejected", "C28")
m("voprf_new_with_key_pk", "Voprf.v", "voprf_server_new_with_key", "let pk := elem_mul G (base_elem G) sk in", "let pk := elem_mul G (elem_mul G (base_elem G) sk) sk in", "pk = sk^2 G", "C14")
m("voprf_finalize_first_only", "Voprf.v", "voprf_finalize_after_unblind", "         e <- unblinded_element ;; voprf_finalize_one input e) items.", "         e <- unblinded_element ;; voprf_finalize_one input e) (firstn 1 items).", "only the first item finalized", "C05; C08")
m("voprf_client_blinded_not_stored", "Voprf.v", "voprf_client_deterministic_blind_unchecked", "(mkVoprfClient blind blinded_element) (mkBlinded blinded_element)", "(mkVoprfClient blind (base_elem G)) (mkBlinded blinded_element)", "client stores another element", "C02; C05")
m("voprf_get_pk", "Voprf.v", "voprf_server_get_public_key", ": elem CS := voprf_pk self", ": elem CS := base_elem G", "returns the generator", "C14: get_public_key; C02")

# Poprf.v
m("poprf_tweak_no_zero_check", "Poprf.v", "compute_tweak", "if is_zero_scalar G t then Err EProtocol else Ok t", "Ok t", "zero tweak accepted", "C20; C26: no panics")
m("poprf_tweaked_key_no_id_check", "Poprf.v", "compute_tweaked_key", "if is_identity_elem G tweaked_key then Err EProtocol else Ok tweaked_key", "Ok tweaked_key", "identity tweaked key accepted", "C20: client fails exactly when the server does")
m("poprf_tweak_label", "Poprf.v", "compute_tweak", "let framed_info := [STR_INFO; info_len; info] in", "let framed_info := [info_len; info] in", "\"Info\" missing on the server", "C03; C20", nth=1)
m("poprf_tweak_both_label", "Poprf.v", "compute_tweak, compute_tweaked_key", "let framed_info := [STR_INFO; info_len; info] in", "let framed_info := [info_len; info] in", "\"Info\" missing on both sides", "C03: RFC output", all=True)
m("poprf_tweak_no_len", "Poprf.v", "compute_tweak, compute_tweaked_key", "let framed_info := [STR_INFO; info_len; info] in", "let framed_info := [STR_INFO; info] in", "info length not hashed", "C03; C19", all=True)
m("poprf_tweak_err", "Poprf.v", "compute_tweak", "info_len <- map_err (i2osp_2 (len info)) EInfo ;;", "info_len <- map_err (i2osp_2 (len info)) EInput ;;", "wrong error", "C20: Error::Info; C25", nth=1)
m("poprf_unblind_no_swap", "Poprf.v", "poprf_unblind", "verify_proof CS g tweaked_key evaluation_elements blinded_elements proof Poprf", "verify_proof CS g tweaked_key blinded_elements evaluation_elements proof Poprf", "C, D not swapped", "C03; C10")
m("poprf_unblind_untweaked", "Poprf.v", "poprf_unblind", "verify_proof CS g tweaked_key", "verify_proof CS g pk", "verifies against the untweaked key", "C03; C10; C12")
m("poprf_prepare_no_inv", "Poprf.v", "poprf_server_batch_blind_evaluate_prepare", "Ok (mkPrepared (mkEvaluation (elem_mul G (blinded_value blinded_element) inv)))", "Ok (mkPrepared (mkEvaluation (elem_mul G (blinded_value blinded_element) tweak)))", "multiplies by the tweak", "C03; C06")
m("poprf_finalize_no_info", "Poprf.v", "poprf_finalize_one", "(chain_update (chain_update (chain_update hash_new il) input) nl)\n                    info)", "(chain_update (chain_update hash_new il) input) nl)", "info bytes not hashed", "C03; C18")
m("poprf_batch_finalize_no_check", "Poprf.v", "poprf_finalize_after_unblind", "  if negb (len unblinded_elements =? len inputs)%N then Err EBatch else\n", "", "input count unchecked", "C08: a different number of inputs is Error::Batch")
m("poprf_evaluate_uses_sk", "Poprf.v", "poprf_server_evaluate", "inv <- invert_scalar G tweak ;;", "inv <- invert_scalar G (poprf_sk self) ;;", "untweaked key used", "C03", nth=1)
m("poprf_evaluate_default_info", "Poprf.v", "poprf_server_evaluate", "server_evaluate_hash_input CS input info issued_element", "server_evaluate_hash_input CS input (Some (info_or_default info)) issued_element", "the bug of evaluate(None) repaired", "C04 (refutation must fail on the repaired program)")
m("poprf_batch_returns_err", "Poprf.v", "poprf_server_batch_blind_evaluate", "r <~ runwrap (poprf_server_batch_blind_evaluate_finish R blinded_elements", "r <~ (poprf_server_batch_blind_evaluate_finish R blinded_elements", "the unwrap bug repaired", "C07/C26 (panic theorem must fail on the repaired program)")
m("poprf_finish_messages_blinded", "Poprf.v", "poprf_server_batch_blind_evaluate_finish", "let messages := map (fun element => mkEvaluation (evaluation_value (prepared_value element)))\n                      prepared_evaluation_elements in", "let messages := map (fun element => mkEvaluation (blinded_value element)) blinded_elements in", "returns the blinded elements", "C06; C03")
m("poprf_eval_order", "Poprf.v", "poprf_server_evaluate", "  if is_identity_elem G input_element then Err EInput else\n", "", "identity not rejected", "C28")
m("poprf_get_pk", "Poprf.v", "poprf_server_get_public_key", ": elem CS := poprf_pk self", ": elem CS := base_elem G", "returns the generator", "C14")
m("poprf_new_rng", "Poprf.v", "poprf_server_new", "fill_bytes R st (N.to_nat (scalar_len G))", "fill_bytes R st (N.to_nat (elem_len G))", "draws ElemLen bytes", "C29: new draws ScalarLen bytes")

# Serialization.v
m("take_ext_le", "Serialization.v", "take_ext", "if (len self <? take)%N then None", "if (len self <=? take)%N then None", "exact length rejected", "C23: round trip; C24")
m("take_ext_no_check", "Serialization.v", "take_ext", "if (len self <? take)%N then None\n  else Some", "Some", "short input passed on", "C24: short strings are rejected", note="may survive: the group's own deserialize also checks lengths")
m("voprf_server_deser_no_pk", "Serialization.v", "voprf_server_deserialize", "'(pk, input) <- de_elem input ;;\n  Ok (mkVoprfServer sk pk)", "Ok (mkVoprfServer sk (elem_mul G (base_elem G) sk))", "public key recomputed instead of read", "C14: deserialize accepts mismatched halves; C24: length")
m("proof_ser_swapped", "Serialization.v", "proof_serialize", "serialize_scalar G (c_scalar self) ++ serialize_scalar G (s_scalar self)", "serialize_scalar G (s_scalar self) ++ serialize_scalar G (c_scalar self)", "order swapped in serialize", "C23; C32")
m("proof_both_swapped", "Serialization.v", "proof_serialize, proof_deserialize", "serialize_scalar G (c_scalar self) ++ serialize_scalar G (s_scalar self).\nDefinition proof_deserialize (input : bytes) : res (Proof CS) :=\n  '(c_scalar, input) <- de_scalar input ;;\n  '(s_scalar, input) <- de_scalar input ;;", "serialize_scalar G (s_scalar self) ++ serialize_scalar G (c_scalar self).\nDefinition proof_deserialize (input : bytes) : res (Proof CS) :=\n  '(s_scalar, input) <- de_scalar input ;;\n  '(c_scalar, input) <- de_scalar input ;;", "wire order of the proof is s, c on both sides", "the encoding of RFC 9497 (c then s)")
m("voprf_client_both_swapped", "Serialization.v", "voprf_client_serialize/deserialize", "serialize_scalar G (voprf_blind self) ++ serialize_elem G (voprf_blinded_element self).\nDefinition voprf_client_deserialize (input : bytes) : res (VoprfClient CS) :=\n  '(blind, input) <- de_scalar input ;;\n  '(blinded_element, input) <- de_elem input ;;", "serialize_elem G (voprf_blinded_element self) ++ serialize_scalar G (voprf_blind self).\nDefinition voprf_client_deserialize (input : bytes) : res (VoprfClient CS) :=\n  '(blinded_element, input) <- de_elem input ;;\n  '(blind, input) <- de_scalar input ;;", "field order swapped on both sides", "stable wire format of VoprfClient")
m("poprf_client_len", "Serialization.v", "PoprfClientLen", "Definition PoprfClientLen : N := scalar_len G + elem_len G.", "Definition PoprfClientLen : N := scalar_len G + scalar_len G.", "wrong advertised length", "C23: serialize has the advertised length", tightened=["C23_roundtrip_*", "C24_prefix_*", "C41_wire_format"], note="rerun: it survived the first time, so C23/C24 now use the advertised lengths and C41 was added")
m("blinded_deser_strict", "Serialization.v", "de_elem", "  e <- deserialize_elem G front ;;\n  Ok (e, back).", "  e <- deserialize_elem G input ;;\n  Ok (e, back).", "whole input given to the group", "C24: trailing bytes ignored; C23")

# Sessions / Serde / Drop
m("drop_voprf_blind_kept", "Drop.v", "drop_voprf_client", "mkVoprfClient (zeroize_scalar G (voprf_blind x))", "mkVoprfClient (voprf_blind x)", "blind not wiped", "C35")
m("drop_proof_s_kept", "Drop.v", "drop_proof", "(zeroize_scalar G (s_scalar x))", "(s_scalar x)", "s not wiped", "C35")
m("drop_prepared_kept", "Drop.v", "drop_prepared", "mkPrepared (drop_evaluation (prepared_value x))", "x", "not wiped", "C35")
m("drop_tweak_kept", "Drop.v", "drop_tweak", "mkPreparedTweak (zeroize_scalar G (tweak_value x))", "x", "tweak not wiped", "C35")
m("serde_no_len", "Serde.v", "de_array", "if (len l =? n)%N then de_items l else serr", "de_items l", "length unchecked", "C36: agrees with the byte format / validates")
m("serde_mod_256", "Serde.v", "de_u8", "if ((0 <=? n) && (n <=? 255))%Z then from_opt (Byte.of_N (Z.to_N n)) else serr", "from_opt (Byte.of_N (Z.to_N (n mod 256)))", "numbers reduced modulo 256", "C36")
m("serde_scalar_unvalidated", "Serde.v", "dd_scalar", "b <- de_array (scalar_len G) d ;; custom (deserialize_scalar G b)", "b <- de_array (scalar_len G) d ;; match deserialize_scalar G b with Ok s => Ok s | _ => Ok (zero_scalar G) end", "invalid scalars become zero", "C36: only non-zero scalars")
m("serde_field_swap", "Serde.v", "sd_proof", '("c_scalar"%string, sd_scalar (c_scalar x)); ("s_scalar"%string, sd_scalar (s_scalar x))', '("c_scalar"%string, sd_scalar (s_scalar x)); ("s_scalar"%string, sd_scalar (c_scalar x))', "fields swapped when writing", "C36: round trip")

# Xmd.v
m("xmd_no_len", "Xmd.v", "expand_message", "             (u16_to_be_bytes len_in_bytes))\n          [x00])", "             [])\n          [x00])",
  "output length not hashed", "C42: hashing follows RFC 9380")
m("xmd_oversize_limit", "Xmd.v", "MAX_DST_LEN", "MAX_DST_LEN : N := 255", "MAX_DST_LEN : N := 256",
  "tags of 256 bytes are not hashed", "C42: tags over 255 bytes are hashed first")
m("xmd_no_xor", "Xmd.v", "expander_next", "(chain_update hash_new (xor_bytes (x_b_0 x) (x_b_vals x)))", "(chain_update hash_new (x_b_vals x))",
  "previous block not xored with b_0", "C42")
m("xmd_empty_tag", "Xmd.v", "domain_xmd", "if (len (concat dsts) =? 0)%N then Err IInput\n  else ", "",
  "empty tag accepted", "C42: fails for an empty tag")
m("xmd_fill_restart", "Xmd.v", "expander_fill", "if (x_offset x =? length (x_b_vals x))%nat then expander_next H x else Some x", "Some x",
  "no next block: zeros after the first block", "C42")
m("xmd_index_not_bumped", "Xmd.v", "expander_next", "let index := (x_index x + 1)%N in", "let index := x_index x in",
  "block counter stuck at 1", "C42")
# Ristretto.v
m("ris_elem_no_id_check", "Ristretto.v", "ristretto_deserialize_elem", "ok_or (opt_filter (fun point => negb (rp_eq D point (rp_identity D))) (decompress D c))", "ok_or (decompress D c)",
  "identity accepted", "C38: identity elements are never read")
m("ris_scalar_no_zero_check", "Ristretto.v", "ristretto_deserialize_scalar", "ok_or (opt_filter (fun scalar => negb (feqb ell scalar (f0 ell)))\n           (match from_slice32 scalar_bits with\n            | Some bytes => from_canonical_bytes bytes\n            | None => None\n            end)) EDeserialization",
  "ok_or (match from_slice32 scalar_bits with\n            | Some bytes => from_canonical_bytes bytes\n            | None => None\n            end) EDeserialization", "zero scalar accepted", "C38; C39")
m("ris_scalar_mod_order", "Ristretto.v", "from_canonical_bytes", "if le_Z b <? ell then Some (of_Z ell (le_Z b)) else None", "Some (of_Z ell (le_Z b))",
  "from_bytes_mod_order instead of from_canonical_bytes", "C38: only canonical scalars; C39")
m("ris_scalar_be", "Ristretto.v", "le_Z / le_bytes", "Definition scalar_to_bytes (s : RScalar) : bytes := le_bytes (fval s) 32.", "Definition scalar_to_bytes (s : RScalar) : bytes := rev (le_bytes (fval s) 32).",
  "scalars written big endian", "C38: round trip")
m("ris_random_no_zero_check", "Ristretto.v", "ristretto_random_scalar", "if negb (feqb ell scalar (f0 ell)) then (Ok scalar, st')", "if true then (Ok scalar, st')",
  "zero can be sampled", "C38: random_scalar is never zero; C28")
m("ris_random_32", "Ristretto.v", "dalek_scalar_random", "fill_bytes R st 64", "fill_bytes R st 32", "32 random bytes reduced", "C38: 64 bytes per draw")
m("ris_hash_32", "Ristretto.v", "uniform_bytes", "expand_message H input dst 64", "expand_message H input dst 63", "63 bytes requested", "C42")
m("ris_len_33", "Ristretto.v", "from_slice32", "(length b =? 32)%nat", "(32 <=? length b)%nat", "longer strings accepted", "C38; C39")
# EllipticCurve.v
m("ec_order_le", "EllipticCurve.v", "from_repr", "if be_Z b <? order C then", "if be_Z b <=? order C then", "the order itself accepted (as zero)", "C38; C39")
m("ec_min_size", "EllipticCurve.v", "MIN_SIZE", "MIN_SIZE : nat := 24", "MIN_SIZE : nat := 16", "16-byte keys accepted", "C39: 24 to ScalarLen - 1 bytes")
m("ec_pad_right", "EllipticCurve.v", "secret_from_slice", "(repeat x00 (w - length b) ++ b)", "(b ++ repeat x00 (w - length b))", "short keys padded on the right", "C39")
m("ec_secret_zero", "EllipticCurve.v", "secret_from_bytes", "if feqb (order C) s (f0 (order C)) then None else Some s", "Some s", "zero key accepted", "C38; C39")
m("ec_identity_unpadded", "EllipticCurve.v", "ec_serialize_elem", "  bytes ++ repeat x00 (S w - length bytes).", "  bytes.", "identity written as one byte", "C38: identity is written as zeros of ElemLen")
m("ec_no_uncompressed_len", "EllipticCurve.v", "encoded_from_bytes", "| 4%N => if (length rest =? w + w)%nat", "| 4%N => if (w + w <=? length rest)%nat", "longer uncompressed points accepted", "C38: exactly the SEC1 forms")
m("ec_odd_swapped", "EllipticCurve.v", "to_encoded_point", "(if odd then x03 else x02) :: x", "(if odd then x02 else x03) :: x", "parity tag swapped when writing", "C38: round trip")
m("ec_random_zero", "EllipticCurve.v", "ec_random_scalar", "if feqb (order C) s (f0 (order C)) then ec_random_scalar fuel' R st' else (Ok s, st')", "(Ok s, st')", "zero can be sampled", "C38: never zero")
m("ec_invert_zero", "EllipticCurve.v", "ec_invert_scalar", "unwrap_opt (if feqb (order C) scalar (f0 (order C)) then None else Some (finv (order C) scalar))", "Ok (finv (order C) scalar)", "inverting zero does not panic", "C37: NIST suites panic")
m("ec_hash_one", "EllipticCurve.v", "ec_hash_to_curve", "Ok (ep_add C (q 0%nat) (q 1%nat))", "Ok (q 0%nat)", "encode_to_curve instead of hash_to_curve", "C42: sum of two points")
m("ec_hash_scalar_field_len", "EllipticCurve.v", "ec_hash_to_scalar", "(hash_to_field H input dst (scalar_okm C) 1)", "(hash_to_field H input dst (field_okm C) 1)", "field length used for scalars", "C42")
m("ec_hash_reuse_expander", "EllipticCurve.v", "fill_all", "tmp :: fill_all H x' n count", "tmp :: fill_all H x n count", "both field elements from the same bytes", "C42")
m("ec_cofactor", "EllipticCurve.v", "ec_hash_to_curve", "let q i := clear_cofactor C (map_to_curve C (field_from_okm C (nth i u []))) in", "let q i := map_to_curve C (field_from_okm C (nth i u [])) in", "cofactor not cleared", "C42")
# factored definitions of Common.v, Poprf.v
m("composite_index_dropped2", "Common.v", "composite_input", "[i2osp_2_array seed; seed; u16_to_be_bytes i;\n   elem_len_bytes; ci;", "[i2osp_2_array seed; seed;\n   elem_len_bytes; ci;",
  "index not hashed", "C19; C10")
m("composite_seed_no_dst", "Common.v", "composite_seed", "        (chain_update_multi\n           (chain_update\n              (chain_update (chain_update hash_new elem_len_bytes) (serialize_elem G b))\n              l)\n           (as_dst seed_dst))).",
  "        (chain_update\n              (chain_update (chain_update hash_new elem_len_bytes) (serialize_elem G b))\n              l)).", "seed tag not hashed", "C10: RFC composites; C19")
m("composite_seed_no_key", "Common.v", "composite_seed", "(chain_update (chain_update hash_new elem_len_bytes) (serialize_elem G b))", "hash_new",
  "public key not hashed into the seed", "C10; C19")
m("derive_counter_dropped", "Common.v", "derive_key_input", "[seed; info_len; info; u8_to_be_bytes counter]", "[seed; info_len; info]", "counter not hashed", "C15; C16")
m("verify_swaps_lists", "Common.v", "verify_proof", "compute_composites None b cs ds mode", "compute_composites None b ds cs mode", "C and D swapped on the verifier side only", "C02; C10; C12")
m("verify_skips_t3", "Common.v", "verify_proof", "let h2_input := challenge_input b m z t2 t3 in\n  dst <- dst_new STR_HASH_TO_SCALAR mode ;;\n  c <- unwrap (hash_to_scalar G H h2_input (as_dst dst)) ;;\n  if", "let h2_input := challenge_input b m z t2 t2 in\n  dst <- dst_new STR_HASH_TO_SCALAR mode ;;\n  c <- unwrap (hash_to_scalar G H h2_input (as_dst dst)) ;;\n  if",
  "verifier hashes t2 twice", "C12: two accepted replies with a common commitment are correct; C02")
m("proof_mode_const", "Common.v", "generate_proof", "dst <~ rret (dst_new STR_HASH_TO_SCALAR mode) ;;", "dst <~ rret (dst_new STR_HASH_TO_SCALAR Voprf) ;;", "POPRF proofs hashed in VOPRF mode", "C02; C17; C11")
m("eval_input_err", "Common.v", "server_evaluate_hash_input", "nl <- map_err (i2osp_2 (len info)) EInput ;;", "nl <- map_err (i2osp_2 (len info)) EInfo ;;", "other error for long info in evaluate", "C25; C27")
# Serde.v / Drop.v / Sessions.v
m("sess_save_other", "Sessions.v", "voprf_mode.save_client", "save_client := voprf_client_serialize CS;", "save_client := fun c => serialize_scalar G (voprf_blind c);", "only the blind is saved", "C31: crash and restore; C22")
m("sess_no_proof", "Sessions.v", "voprf_mode.m_finish", "    p <- proof_deserialize CS (snd reply) ;;\n    pk <- deserialize_elem G pk ;;\n    voprf_client_finalize CS c input e p pk;", "    oprf_client_finalize CS (mkOprfClient (voprf_blind c)) input e;", "client ignores the proof", "C34: accepted outputs are right under a hostile network")
# C43-C45
m("canon_tag5_uncompressed_only", "EllipticCurve.v", "encoded_from_bytes", "| 5%N => if (length rest =? w)%nat then Some (EncCompact rest) else None", "| 5%N => if (length rest =? w)%nat then Some (EncCompressed rest false) else None",
  "compact tag read as the even point", "C38; C43")
m("canon_tag6", "EllipticCurve.v", "encoded_from_bytes", "      | 5%N => if (length rest =? w)%nat then Some (EncCompact rest) else None\n", "      | 5%N => if (length rest =? w)%nat then Some (EncCompact rest) else None\n      | 6%N => if (length rest =? w)%nat then Some (EncCompressed rest false) else None\n",
  "hybrid tag 6 accepted as a compressed point", "C38; C43: exactly one further encoding")
m("canon_ris_scalar_top_bits", "Ristretto.v", "from_canonical_bytes", "if le_Z b <? ell then Some (of_Z ell (le_Z b)) else None", "if le_Z b <? 2 ^ 253 then Some (of_Z ell (le_Z b)) else None",
  "only the top bits are checked", "C43: one encoding per value; C38")
m("canon_take_more", "Serialization.v", "de_scalar", "'(front, back) <- ok_or (take_ext input (scalar_len G)) EDeserialization ;;", "'(front, back) <- ok_or (take_ext input (scalar_len G - 1)) EDeserialization ;;",
  "one byte too few read for a scalar", "C43; C22; C24")
m("danger_blind_negated", "Danger.v", "oprf_client_get_blind", "scalar CS := oprf_blind self.", "scalar CS := scalar_sub (CSGroup CS) (zero_scalar (CSGroup CS)) (oprf_blind self).",
  "get_blind returns the negated factor", "C44: the factor reproduces the message")
m("danger_derive_mode", "Danger.v", "derive_key", "derive_key_internal CS seed info mode.", "derive_key_internal CS seed info Oprf.",
  "derive_key ignores the mode", "C44: derive_key is the key of new_from_seed")
m("danger_derive_swapped", "Danger.v", "derive_key", "derive_key_internal CS seed info mode.", "derive_key_internal CS info seed mode.",
  "seed and info swapped", "C44: derive_key is the key of new_from_seed")
m("danger_value_swapped", "Danger.v", "blinded_from_value_unchecked", "BlindedElement CS := mkBlinded value.", "BlindedElement CS := mkBlinded (elem_add (CSGroup CS) value (base_elem (CSGroup CS))).",
  "a different element is stored", "C44: value and from_value_unchecked are inverse")
m("uniform_no_reject", "EllipticCurve.v", "field_random", "      match from_repr b with\n      | Some s => (Ok s, st')", "      match Some (of_Z (order C) (be_Z b)) with\n      | Some s => (Ok s, st')",
  "reduction instead of rejection", "C45: every scalar equally often; C38")
m("uniform_ris_32", "Ristretto.v", "dalek_scalar_random", "(from_bytes_mod_order_wide b, st')", "(from_bytes_mod_order_wide (firstn 32 b), st')",
  "only 32 of the 64 bytes used", "C45: bias below 2^-259; C38")
m("uniform_ris_mask", "Ristretto.v", "from_bytes_mod_order_wide", "RScalar := of_Z ell (le_Z b).", "RScalar := of_Z ell (8 * le_Z b).",
  "multiples of eight only (clamping)", "C42; C38")
m("uniform_zero_remapped", "EllipticCurve.v", "ec_random_scalar", "if feqb (order C) s (f0 (order C)) then ec_random_scalar fuel' R st' else (Ok s, st')", "if feqb (order C) s (f0 (order C)) then (Ok (f1 (order C)), st') else (Ok s, st')",
  "zero replaced by one instead of redrawing", "C45: every scalar equally often; C38")
# C46-C48
N = "NistCurve.v"
m("nist_osswu_sign", N, "osswu", "let y := if xorb (sgn0 u) (sgn0 y) then [~] y else y in", "let y := if xorb (sgn0 u) (sgn0 y) then y else [~] y in",
  "sign of y inverted", "C47: sgn0 of y is that of u")
m("nist_osswu_exceptional", N, "osswu", "if feqb p xd (f0 p) then cZ [*] cA else xd", "xd",
  "exceptional case u = 0 dropped", "C47: RFC 9380 map for every u")
m("nist_osswu_x2", N, "osswu", "let x2n := tv3 [*] x1n in", "let x2n := tv1 [*] x1n in",
  "factor Z missing in x2", "C47")
m("nist_osswu_y2", N, "osswu", "let y2 := y1 [*] cC2 [*] tv1 [*] u in", "let y2 := y1 [*] cC2 [*] tv1 in",
  "factor u missing in y2", "C47")
m("nist_osswu_swap", N, "osswu", "let y := if e2 then y1 else y2 in", "let y := if e2 then y2 else y1 in",
  "y1 and y2 swapped", "C47")
m("nist_osswu_prefers_x2", N, "osswu", "let e2 := feqb p tv2 gx1 in", "let e2 := negb (feqb p tv2 gx1) in",
  "test for the square inverted", "C47")
m("nist_osswu_neg_a", N, "osswu", "let xd := xd [*] [~] cA in", "let xd := xd [*] cA in",
  "denominator has the wrong sign", "C47")
m("nist_decompress_parity", N, "decompress", "if Bool.eqb (sgn0 beta) y_is_odd then beta else [~] beta", "if Bool.eqb (sgn0 beta) y_is_odd then [~] beta else beta",
  "tags 02 and 03 exchanged on reading", "C46: tag gives the parity; C23")
m("nist_decompress_root", N, "decompress", "if Bool.eqb (sgn0 beta) y_is_odd then beta else [~] beta", "beta",
  "parity ignored", "C46")
m("nist_decompress_range", N, "decompress", "if be_Z xb <? p then", "if be_Z xb <? 2 ^ 512 then",
  "x reduced instead of rejected", "C46: exactly the SEC1 encodings; C43")
m("nist_decompress_range_le", N, "decompress", "if be_Z xb <? p then", "if be_Z xb <=? p then",
  "x = p accepted", "C46")
m("nist_sqrt_unchecked", N, "fsqrt", "if feqb p (r [*] r) x then Some r else None", "Some r",
  "candidate root not checked", "C46: points off the curve are rejected")
m("nist_xy_unchecked", N, "from_xy", "if on_curve p cA cB x y then Some (point p cA cB x y) else None", "Some (point p cA cB x y)",
  "uncompressed coordinates not checked against the equation", "C46")
m("nist_xy_swapped", N, "from_xy", "Some (point p cA cB x y) else None\n", "Some (point p cA cB x ([~] y)) else None\n",
  "uncompressed y negated", "C46")
m("nist_xy_range", N, "from_xy", "(be_Z xb <? p) && (be_Z yb <? p)", "(be_Z xb <? p)",
  "y not range checked", "C46")
m("nist_coords_parity", N, "coords", "(I2OSP (Z.to_N (fval x)) (pw P), sgn0 y)", "(I2OSP (Z.to_N (fval x)) (pw P), sgn0 x)",
  "parity of x written", "C46; C23")
m("nist_mul_bits", N, "nist_mul", "(fval k) Q.", "(fval k mod 2 ^ 255) Q.",
  "top bit of the scalar ignored", "C46: every element a multiple; C48")
m("nist_generator_y", N, "generator", "(of_Z p (pgy P))", "([~] of_Z p (pgy P))",
  "other generator", "C46: base point of SEC 2")
m("nist_identity_add", N, "NistCurve.ep_add", "ep_add := add p cA cB;", "ep_add := fun Q R => add p cA cB R R;",
  "doubling instead of addition", "C47: sum of the two points; C48")
m("nist_okm", N, "NistCurve.field_from_okm", "field_from_okm := fun okm => of_Z p (be_Z okm);", "field_from_okm := fun okm => of_Z p (be_Z (firstn 32 okm));",
  "only 32 bytes of each field element used", "C47: hash_to_field")
m("nist_scalar_okm", N, "NistCurve.scalar_okm", "scalar_okm := pl P;", "scalar_okm := N.of_nat (pw P);",
  "scalars hashed from 32 bytes instead of 48", "C47")
m("nist256_b", "Nist256.v", "P256", "pb := 0x5ac6", "pb := 0x5ac7", "wrong constant b", "C46")
m("nist256_z", "Nist256.v", "P256", "pz := -10;", "pz := 10;", "Z has the wrong sign", "C47")
m("nist256_a", "Nist256.v", "P256", "pa := -3;", "pa := 3;", "a has the wrong sign", "C46")
m("nist256_pl", "Nist256.v", "P256", "pl := 48", "pl := 32", "L = 32 instead of 48", "C47")
m("nist256_gy", "Nist256.v", "P256", "pgy := 0x4fe342e2fe1a7f9b8ee7eb4a7c0f9e162bce33576b315ececbb6406837bf51f5;", "pgy := 0x4fe342e2fe1a7f9b8ee7eb4a7c0f9e162bce33576b315ececbb6406837bf51f4;", "generator off the curve", "C46")
m("nist256_id", "PropNist.v", "P256_SHA256", '(bstr "P256-SHA256") (hash_of SHA256)', '(bstr "P256-SHA256") (hash_of SHA512)', "suite uses SHA-512", "C47")
m("sha_block_size", "Sha2.v", "hash_of", "block_size := 2 * sh_w S", "block_size := sh_w S", "block size halved", "C47: Z_pad of RFC 9380")
m("sha_truncate", "Sha2.v", "hash_of", "digest := sha2 S;", "digest := fun m => firstn 31 (sha2 S m);", "digest one byte short", "C47; C48")

# Rist255.v
m("rist_neg_even", "Rist255.v", "is_negative", "Z.odd (fval x)", "Z.even (fval x)", "even numbers are negative", "C49; C50")
m("rist_abs_none", "Rist255.v", "ct_abs", "if is_negative x then [~] x else x", "x", "no absolute value", "C49: encodings are non-negative; C50")
m("rist_sqrt_flip_i", "Rist255.v", "sqrt_ratio_m1", "if (flipped_sign || flipped_sign_i)%bool then", "if flipped_sign then", "flipped_sign_i not corrected", "C50: RFC 9496 MAP")
m("rist_sqrt_was_square", "Rist255.v", "sqrt_ratio_m1", "((correct_sign || flipped_sign)%bool, ct_abs r)", "(correct_sign, ct_abs r)", "flipped squares count as non-squares", "C49; C50")
m("rist_sqrt_exp", "Rist255.v", "sqrt_ratio_m1", "((p - 5) / 8)", "((p + 3) / 8)", "wrong exponent", "C49; C50")
m("rist_sqrt_no_abs", "Rist255.v", "sqrt_ratio_m1", "(correct_sign || flipped_sign)%bool, ct_abs r)", "(correct_sign || flipped_sign)%bool, r)", "root of either sign", "C50")
m("rist_decode_square", "Rist255.v", "decode_s", "negb was_square || is_negative t", "is_negative t", "non-squares accepted", "C49: only valid encodings are read; C21")
m("rist_decode_t", "Rist255.v", "decode_s", "negb was_square || is_negative t || (y [=] zero)", "negb was_square || (y [=] zero)", "negative t accepted", "C49; C21")
m("rist_decode_y", "Rist255.v", "decode_s", "is_negative t || (y [=] zero)", "is_negative t", "y = 0 accepted", "C49; C21")
m("rist_decode_range", "Rist255.v", "decode", "(le_Z b <? p) && ", "", "numbers of p or more are reduced", "C49: canonical encodings; C22")
m("rist_decode_range_le", "Rist255.v", "decode", "(le_Z b <? p)", "(le_Z b <=? p)", "p itself is read", "C49: canonical encodings; C22")
m("rist_decode_sign", "Rist255.v", "decode", " && negb (is_negative (of_Z p (le_Z b))))", ")", "negative s accepted", "C49: canonical encodings")
m("rist_decode_length", "Rist255.v", "decode", "(length b =? 32)%nat && ", "", "any length", "C49")
m("rist_decode_v", "Rist255.v", "decode_s", "[~] (cD [*] (u1 [*] u1)) [-] u2_sqr", "(cD [*] (u1 [*] u1)) [-] u2_sqr", "sign of D", "C49")
m("rist_encode_rotate", "Rist255.v", "encode_s", "let rotate := is_negative (t0 [*] z_inv) in", "let rotate := false in", "never rotated", "C49: one encoding per class; C50")
m("rist_encode_negy", "Rist255.v", "encode_s", "let y := if is_negative (x [*] z_inv) then [~] y else y in", "", "y not negated", "C49")
m("rist_encode_abs", "Rist255.v", "encode_s", "ct_abs (den_inv [*] (z [-] y))", "den_inv [*] (z [-] y)", "encoding of either sign", "C49")
m("rist_encode_swap", "Rist255.v", "encode_s", "if rotate then iy0 else x0", "if rotate then ix0 else x0", "rotation does not swap", "C49")
m("rist_equals_half", "Rist255.v", "equals", " || ((y1 [*] y2) [=] (x1 [*] x2))", "", "two of the four points compared", "C49: equality", note="elements are canonical representatives, so the second alternative of Equals never decides between two elements of the model: a survivor here is expected")
m("rist_map_ods", "Rist255.v", "rmap", "(r [+] one) [*] ONE_MINUS_D_SQ", "(r [-] one) [*] ONE_MINUS_D_SQ", "u wrong", "C50: RFC 9496 MAP")
m("rist_map_sprime", "Rist255.v", "rmap", "[~] (ct_abs (s [*] t))", "ct_abs (s [*] t)", "s' not negated", "C50")
m("rist_map_c", "Rist255.v", "rmap", "let c := if was_square then [~] one else r in", "let c := if was_square then one else r in", "c = 1", "C50")
m("rist_map_w1", "Rist255.v", "rmap", "N [*] SQRT_AD_MINUS_ONE", "N", "w1 lacks the root", "C50")
m("rist_map_select", "Rist255.v", "rmap", "let s := if was_square then s else s_prime in", "let s := if was_square then s_prime else s in", "selection inverted", "C50")
m("rist_half_mask", "Rist255.v", "half", "le_Z b mod 2 ^ 255", "le_Z b", "top bit not cleared", "C50")
m("rist_half_big_endian", "Rist255.v", "half", "le_Z b mod 2 ^ 255", "le_Z (rev b) mod 2 ^ 255", "big endian", "C50")
m("rist_uniform_one", "Rist255.v", "rfrom_uniform", "(affine (rmap (half (skipn 32 b))))", "(eid p cD Hp)", "one map only", "C50")
m("rist_uniform_same", "Rist255.v", "rfrom_uniform", "(skipn 32 b)", "(firstn 32 b)", "first half used twice", "C50")
m("rist_affine_swap", "Rist255.v", "affine", "(x [*] finv p z) (y [*] finv p z)", "(y [*] finv p z) (x [*] finv p z)", "coordinates swapped", "C50")
m("rist_base", "Rist255.v", "rbase", "rbase : RP := class (epoint p cD Hp (of_Z p (rbx R)) (of_Z p (rby R)))", "rbase : RP := class (eid p cD Hp)", "generator is the identity", "C49")
m("rist_add_left", "Rist255.v", "radd", "class (eadd p cD Hp (rpt P) (rpt Q))", "class (eadd p cD Hp (rpt P) (rpt P))", "addition doubles", "C49; C51")
# Rist25519.v
m("rist_const_rd", "Rist25519.v", "R25519", "rd := 37095705934669439343138083508754565189542113879843219016388785533085940283555", "rd := 37095705934669439343138083508754565189542113879843219016388785533085940283556", "D + 1", "C49")
m("rist_const_q_neg", "Rist25519.v", "R25519", "rq := 25063068953384623474111414158702152701244531502492656460079210482610430750235", "rq := (2 ^ 255 - 19 - 25063068953384623474111414158702152701244531502492656460079210482610430750235)", "the other root of a*d - 1", "C50")
m("rist_const_i_neg", "Rist25519.v", "R25519", "ri := 19681161376707505956807079304988542015446066515923890162744021073123829784752", "ri := (2 ^ 255 - 19 - 19681161376707505956807079304988542015446066515923890162744021073123829784752)", "the other root of -1", "C50")
m("rist_const_base", "Rist25519.v", "R25519", "rbx := 15112221349535400772501151409588531511454012693041857206046113283949847762202", "rbx := (2 ^ 255 - 19 - 15112221349535400772501151409588531511454012693041857206046113283949847762202)", "minus the base point", "C49: the generator is the class of Ed25519's base point")
m("rist_const_c_neg", "Rist25519.v", "R25519", "rc := 54469307008909316920995813868745141605393597292927456921205312896311721017578", "rc := (2 ^ 255 - 19 - 54469307008909316920995813868745141605393597292927456921205312896311721017578)", "the other root of 1/(a-d)", "none: the sign of INVSQRT_A_MINUS_D is cancelled by CT_ABS", note="equivalent: encode_s takes the absolute value")
m("rist_suite_hash", "PropRist.v", "Ristretto255_SHA512", "RistrettoSuite Dalek25519 fuel (hash_of SHA512)", "RistrettoSuite Dalek25519 fuel (hash_of SHA256)", "SHA-256", "C50; C51")
# Trace.v: edits that keep every result and change what is done for it
m("trace_verify_shortcut", "Trace.v", "t_verify_proof", "  as_ <-- t_mul a (s_scalar proof) ;;", "  zero <-- t_is_zero (s_scalar proof) ZeroKey ;;\n  as_ <-- (if zero then tret (elem_mul G a (s_scalar proof)) else t_mul a (s_scalar proof)) ;;", "the multiplication is skipped if s is zero", "C60: what a call does depends on lengths and numbers only; C61: cost of verification")
m("trace_evaluate_one", "Trace.v", "t_oprf_server_blind_evaluate", "  e <-- t_mul (blinded_value blinded_element) (oprf_sk self) ;;", "  e <-- (if is_zero_scalar G (oprf_sk self) then tret (elem_mul G (blinded_value blinded_element) (oprf_sk self)) else t_mul (blinded_value blinded_element) (oprf_sk self)) ;;", "no multiplication for a certain key, without a recorded test", "C60: evaluation does the same for all keys")
m("trace_double_for_key", "Trace.v", "t_mul", "Definition t_mul (e : elem CS) (k : scalar CS) : tr (elem CS) := tval MulElem (elem_mul G e k).", "Definition t_mul (e : elem CS) (k : scalar CS) : tr (elem CS) := if is_zero_scalar G k then (Ok (elem_mul G e k), [MulElem; MulElem]) else tval MulElem (elem_mul G e k).", "multiplication by certain scalars is recorded as two", "C60; C61")
m("trace_weight_identity", "Trace.v", "t_composite_step", "| None => dw <-- t_mul d w ;; t_add dw z", "| None => dw <-- (if is_identity_elem G d then tret (elem_mul G d w) else t_mul d w) ;; t_add dw z", "no multiplication for the identity", "C60; C61")
m("trace_finalize_input_update", "Trace.v", "t_finalize_one", "  h <-- t_update h input ;;\n  h <-- t_update h (elem_len_bytes CS) ;;", "  h <-- (match input with x00 :: _ => tret (chain_update h input) | _ => t_update h input end) ;;\n  h <-- t_update h (elem_len_bytes CS) ;;", "the update is not done for inputs that begin with 0", "C60: the same for all inputs of a length")
m("trace_blind_twice", "Trace.v", "t_deterministic_blind_unchecked", "  hashed_point <-- t_hash_to_group input mode ;;", "  _ <-- t_hash_to_group input mode ;;\n  hashed_point <-- t_hash_to_group input mode ;;", "input hashed twice", "C61: cost of blinding")
m("trace_verify_twice", "Trace.v", "t_voprf_client_batch_finalize", "  _ <-- t_verify_proof (base_elem G) pk (map voprf_blinded_element clients) (map evaluation_value messages) proof Voprf ;;\n  tret (map", "  _ <-- t_verify_proof (base_elem G) pk (map voprf_blinded_element clients) (map evaluation_value messages) proof Voprf ;;\n  _ <-- t_verify_proof (base_elem G) pk (map voprf_blinded_element clients) (map evaluation_value messages) proof Voprf ;;\n  tret (map", "proof verified twice", "C61: cost of finalizing a batch")
m("trace_unblind_shared", "Trace.v", "t_unblind_one", "  inv <-- t_invert blind ;;\n  t_mul", "  _ <-- t_invert blind ;;\n  inv <-- t_invert blind ;;\n  t_mul", "inverse computed twice", "C61: n inversions for a batch")
m("trace_lengths_late", "Trace.v", "t_compute_composites", "  seed_dst <-- tpure (dst_new CS STR_SEED mode) ;;", "  _ <-- t_collect (map (fun d => t_mul d (zero_scalar G)) d_slice) ;;\n  seed_dst <-- tpure (dst_new CS STR_SEED mode) ;;", "n further multiplications", "C61: 2n+3 multiplications")
# Derives.v
m("derive_eq_first", "Derives.v", "derive2", "eq_of DA (a x) (a y) && eq_of DB (b x) (b y)", "eq_of DA (a x) (a y)", "only the first field compared", "C62: == exactly if the same")
m("derive_eq_or", "Derives.v", "derive2", "eq_of DA (a x) (a y) && eq_of DB (b x) (b y)", "eq_of DA (a x) (a y) || eq_of DB (b x) (b y)", "or instead of and", "C62: ==")
m("derive_cmp_first", "Derives.v", "derive2", "Eq => cmp_of DB (b x) (b y) | c => c end;", "c => c end;", "cmp ignores the second field", "C62: only equal values are Equal")
m("derive_cmp_swapped", "Derives.v", "derive2", "Eq => cmp_of DB (b x) (b y) | c => c end;", "Eq => cmp_of DB (b y) (b x) | c => c end;", "second field in the reverse order in cmp only", "C62: partial_cmp agrees with cmp")
m("derive_partial_none", "Derives.v", "derive2", "Some Eq => partial_cmp_of DB (b x) (b y) | c => c end;", "Some Eq => partial_cmp_of DB (b x) (b y) | _ => None end;", "partial_cmp undefined if the first field differs", "C62: partial_cmp agrees with cmp")
m("derive_feed_first", "Derives.v", "derive2", "feed_of x := feed_of DA (a x) ++ feed_of DB (b x);", "feed_of x := feed_of DA (a x);", "second field not hashed", "C62: no value feeds the hasher the beginning of another's")
m("derive_feed_second", "Derives.v", "derive2", "feed_of x := feed_of DA (a x) ++ feed_of DB (b x);", "feed_of x := feed_of DB (b x);", "first field not hashed", "C62")
m("derive_clone_proof", "Derives.v", "proof_derives", "derive2 c_scalar s_scalar (mkProof (CS := CS)) DS DS", "derive2 c_scalar s_scalar (fun c s => mkProof (CS := CS) s c) DS DS", "a clone has its scalars swapped", "C62: a clone is the same value")
m("derive_server_sk_only", "Derives.v", "voprf_server_derives", "derive2 voprf_sk voprf_pk (mkVoprfServer (CS := CS)) DS DE.", "derive1 voprf_sk (fun k => mkVoprfServer (CS := CS) k (elem_mul (CSGroup CS) (base_elem (CSGroup CS)) k)) DS.", "public key recomputed and not compared", "C62: == exactly if the same, for all values of the type")
m("derive_client_element_only", "Derives.v", "poprf_client_derives", "derive2 poprf_blind poprf_blinded_element (mkPoprfClient (CS := CS)) DS DE", "derive2 poprf_blind poprf_blinded_element (mkPoprfClient (CS := CS)) {| eq_of _ _ := true; cmp_of := cmp_of DS; partial_cmp_of := partial_cmp_of DS; feed_of := feed_of DS; clone_of := clone_of DS |} DE", "blind not compared", "C62: ==")
# Guess.v / PropUnpredict.v / PropOneMore.v
m("serve_skips_key", "PropUnpredict.v", "oprf_serves", "(oprf_server_blind_evaluate CS' server (mkBlinded (CS := CS') e))], None)), st)", "(mkEvaluation (CS := CS') e)], None)), st)", "the server hands the element back", "C54: what the attacker plays with; C63: the solver sees what the client sees")
m("onemore_candidate_none", "PropOneMore.v", "solver_of", "solver_of hash (next (hash m)) (found ++ candidate m)", "solver_of hash (next (hash m)) found", "the solver keeps nothing", "C63: base-mode reduction")
m("onemore_extra_multiply", "PropOneMore.v", "solver_of", "| Query e next => Multiply e (fun e' => solver_of hash (next e') found)", "| Query e next => Multiply e (fun _ => Multiply e (fun e' => solver_of hash (next e') found))", "the solver multiplies twice", "C63: as many multiplications as evaluations")
# PropDerived.v / PropSeeded.v: the games
m("game_seed_unused", "PropDerived.v", "with_seed_says", "keys_from_seed (with_oracle CS hash) mode seed info) A.", "keys_from_seed (with_oracle CS hash) mode [] info) A.", "the secret seed is not used", "C64: keys of a secret seed")
m("game_same_hash", "PropDerived.v", "independent_says", "keys_from_seed (with_oracle CS other) mode [] info) A.", "keys_from_seed (with_oracle CS hash) mode [] info) A.", "the independent keys come from the hash function the program has", "C64: independent keys")
m("game_user_uncounted", "PropDerived.v", "user_hashes", "| UHash _ _ next => (1 <= Q)%nat /\\ forall a, user_hashes (Q - 1) (next a)", "| UHash _ _ next => forall a, user_hashes Q (next a)", "hashing costs nothing", "C64: advantage at most Q/N")
m("game_no_pk", "PropDerived.v", "keys_from_seed", "| Voprf => match voprf_server_new_from_seed CS seed info with\n             | Ok s => Ok (voprf_sk s, Some (voprf_pk s))", "| Voprf => match voprf_server_new_from_seed CS seed info with\n             | Ok s => Ok (voprf_sk s, None)", "the public key is not given out", "C64: the program gets the keys")
m("game_scalar_uncounted", "PropSeeded.v", "caller_hashes", "| KScalar _ _ next => (1 <= Q2)%nat /\\ forall a, caller_hashes Q1 (Q2 - 1) (next a)", "| KScalar _ _ next => forall a, caller_hashes Q1 Q2 (next a)", "hashing to scalars costs nothing", "C65: Q2/N")
m("game_random_is_hash", "PropSeeded.v", "random_says", "fst (random_server L F input tt)", "fst (random_server L O1 input tt)", "the random function is the hash", "C65: a random function")
m("game_fixed_tape", "PropSeeded.v", "new_evaluate", "fst (oprf_server_new CS PropUniform.TapeRng tape)", "fst (oprf_server_new CS PropUniform.TapeRng [])", "the tape is not used", "C65: a server made from random bytes")
m("numbers_half", "PropSeedNumbers.v", "C65_builtin_numbers", "fresh_server_random (P256_SHA256 pick (S fuel)) 174", "fresh_server_random (P256_SHA256 pick (S fuel)) 175", "one bit more", "C65: the number for P-256")
m("numbers_scalar_len", "PropSeedNumbers.v", "fresh_numbers", "_ _ _ 66 C", "_ _ _ 65 C", "seed length of P-521 65 bytes", "C65 in numbers")
