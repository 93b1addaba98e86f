#!/usr/bin/env python3
# Generates properties.jsonl (kept as a script so the texts can be edited in one place).
import json
P=[]
def p(title, statement, quantifier, why, anchors):
    P.append(dict(id="C%02d"%(len(P)+1), title=title, statement=statement, quantifier=quantifier,
                  why_tests_cant=why, anchors=anchors))
p("OPRF: the oblivious run and the direct evaluation agree with the RFC 9497 PRF",
  "For every ciphersuite over a prime-order group, every non-zero server key, every input of at most 65535 bytes that does not hash to the identity and every RNG: OprfClient::blind followed by OprfServer::blind_evaluate and OprfClient::finalize returns exactly the value OprfServer::evaluate returns for that input, and both are Hash(I2OSP(len(input),2) || input || I2OSP(len(E),2) || E || \"Finalize\") with E the serialization of key*HashToGroup(input).",
  "all ciphersuites, keys, inputs up to 65535 bytes, RNG states",
  "The tests fix one or two inputs and RFC vectors; equality must hold for every input, key and blinding factor.",
  ["src/oprf.rs: OprfClient::blind, OprfClient::finalize, OprfServer::blind_evaluate, OprfServer::evaluate", "src/common.rs: server_evaluate_hash_input"])
p("VOPRF: an honest verifiable run is accepted and yields the RFC 9497 PRF output",
  "For every key pair whose public key is key*generator, every client blind of an input of at most 65535 bytes and every RNG: VoprfServer::blind_evaluate never fails, VoprfClient::finalize with the server's public key accepts the proof, and its output equals VoprfServer::evaluate(input) and the RFC 9497 VOPRF output.",
  "all ciphersuites, key pairs, inputs, blinds and RNG states",
  "Completeness of the proof system is an algebraic identity over all scalars; tests sample a few.",
  ["src/voprf.rs: VoprfClient::finalize, VoprfServer::blind_evaluate, VoprfServer::evaluate", "src/common.rs: generate_proof, verify_proof"])
p("POPRF: an honest run with public info is accepted and yields the RFC 9497 POPRF output",
  "For every key pair, info of at most 65535 bytes for which the tweaked key is non-zero, input of at most 65535 bytes and RNG: PoprfServer::blind_evaluate(.., Some(info)) succeeds, PoprfClient::finalize(.., Some(info)) accepts, and the output equals PoprfServer::evaluate(input, Some(info)) and the RFC 9497 POPRF output Hash(len||input||len||info||len||E||\"Finalize\") with E the serialization of (key+m)^-1*HashToGroup(input), m = HashToScalar(\"Info\"||len||info).",
  "all ciphersuites, key pairs, inputs, infos, blinds and RNG states",
  "Needs the algebra of the tweak for every info and key.",
  ["src/poprf.rs: PoprfClient::finalize, PoprfServer::blind_evaluate, PoprfServer::evaluate, compute_tweak, compute_tweaked_key"])
p("POPRF: omitted info behaves as empty info in every API call",
  "Passing None for info is the same as passing Some(&[]): for blind_evaluate, batch_blind_evaluate_prepare, batch_blind_evaluate, finalize, batch_finalize and evaluate, and in particular PoprfServer::evaluate(input, None) equals the output of the oblivious run with info None.",
  "all ciphersuites, keys, inputs and RNG states",
  "The tests always pass Some(info); the claim is about the untested branch for every input. (The evaluate part is false of the code.)",
  ["src/poprf.rs: PoprfServer::evaluate, compute_tweak, compute_tweaked_key, finalize_after_unblind", "src/common.rs: server_evaluate_hash_input"])
p("VOPRF batches of every size up to 65535 verify with one proof, in order",
  "For every list of at most 65535 inputs (including the empty list), if each is blinded, evaluated by VoprfServer::batch_blind_evaluate and finalized by VoprfClient::batch_finalize with the server's public key, then the batch is accepted and the i-th output is exactly the single-item PRF output of the i-th input.",
  "all ciphersuites, keys, batch sizes 0..65535, inputs, blinds, RNG states",
  "Tests use batches of 1, 2 and 10; the claim is by induction over the batch.",
  ["src/voprf.rs: VoprfServer::batch_blind_evaluate, VoprfClient::batch_finalize, verifiable_unblind", "src/common.rs: compute_composites"])
p("POPRF batches of every size up to 65535 verify with one proof, in order",
  "The same for PoprfServer::batch_blind_evaluate and PoprfClient::batch_finalize with a common info.",
  "all ciphersuites, keys, infos, batch sizes 0..65535, inputs, blinds, RNG states",
  "Batch POPRF is not unit-tested at all except through two RFC vectors of size two.",
  ["src/poprf.rs: PoprfServer::batch_blind_evaluate, PoprfClient::batch_finalize, poprf_unblind"])
p("Batch size limits are errors, not panics or truncation",
  "A batch call fails with Error::Batch exactly when the two element lists differ in length or hold more than 65535 items, for VoprfServer::batch_blind_evaluate(_finish), PoprfServer::batch_blind_evaluate_finish and both batch_finalize functions; PoprfServer::batch_blind_evaluate does not panic. (The last clause is false of the code: it unwraps Error::Batch.)",
  "all list lengths",
  "Needs lists of 65536 and more elements and every mismatch of lengths.",
  ["src/common.rs: compute_composites", "src/voprf.rs: batch_blind_evaluate_finish", "src/poprf.rs: batch_blind_evaluate, batch_blind_evaluate_finish"])
p("batch_finalize returns one result per client",
  "When PoprfClient::batch_finalize succeeds the numbers of inputs, clients, messages and results are all equal, and a different number of inputs is Error::Batch; VoprfClient::batch_finalize returns min(#inputs, #clients) results, so surplus clients or inputs are silently dropped.",
  "all list lengths",
  "Tests only use equal lengths.",
  ["src/voprf.rs: VoprfClient::batch_finalize", "src/poprf.rs: PoprfClient::batch_finalize, finalize_after_unblind"])
p("Single-item calls are batches of one",
  "VoprfServer::blind_evaluate, PoprfServer::blind_evaluate, VoprfClient::finalize and PoprfClient::finalize return exactly what the batch versions return on one-element lists, with the same RNG state, and batch_blind_evaluate equals prepare followed by finish.",
  "all arguments and RNG states",
  "Equality of two code paths for all arguments.",
  ["src/voprf.rs", "src/poprf.rs"])
p("Proof verification accepts exactly the RFC 9497 verification equation",
  "VoprfClient::batch_finalize (PoprfClient::batch_finalize) with lists of equal length at most 65535 returns outputs if and only if the proof (c, s) satisfies RFC 9497 VerifyProof for (generator, public key [tweaked key], blinded elements, evaluation elements [swapped in POPRF]); otherwise it returns Error::ProofVerification and no output at all.",
  "all ciphersuites, public keys, element lists, proofs",
  "An exact characterisation of the accepted set; tests only check one wrong key.",
  ["src/common.rs: verify_proof, compute_composites", "src/voprf.rs: verifiable_unblind", "src/poprf.rs: poprf_unblind"])
p("Generated proofs equal RFC 9497 GenerateProof",
  "The proof returned by the server equals RFC 9497 GenerateProof with the composites computed the slow way (as the verifier does) and the random scalar drawn from the supplied RNG.",
  "all ciphersuites, keys, batches and RNG states",
  "The code uses the fast composite path; equality with the slow path is algebra over all batches.",
  ["src/common.rs: generate_proof, compute_composites"])
p("Verified outputs are correct except on a pinned hash event (soundness)",
  "If VoprfClient::batch_finalize accepts and the public key is k*generator, then either every evaluation element is k times the blinded element (so every output is the PRF output under k), or the batch weights satisfy a non-trivial linear relation, or the challenge hash hit the single scalar for which the committed values can be opened. The analogous statement holds for POPRF with the tweaked key.",
  "all ciphersuites, public keys, batches and adversarial messages and proofs",
  "Quantifies over all malicious servers.",
  ["src/common.rs: verify_proof, compute_composites"])
p("A proof does not verify for another public key or another evaluation element",
  "If an honest server's proof for one item is accepted with a public key other than the server's, or with another evaluation element, then two different byte strings with the same HashToScalar value under the same domain separation tag are exhibited.",
  "all ciphersuites, keys, substituted keys and elements",
  "Tests try one wrong key; the claim is a reduction to a hash collision for every substitution.",
  ["src/common.rs: verify_proof", "src/voprf.rs: VoprfClient::finalize", "src/poprf.rs: PoprfClient::finalize"])
p("Public keys match private keys",
  "Every VoprfServer or PoprfServer produced by new, new_from_seed or new_with_key has get_public_key() = private key * generator and a non-zero private key; therefore its proofs verify under its public key. deserialize does not re-check the relation: it accepts a key pair whose halves do not match.",
  "all seeds, infos, key bytes, RNGs and serialized servers",
  "All constructors, all inputs.",
  ["src/voprf.rs: VoprfServer::new, new_from_seed, new_with_key", "src/poprf.rs: PoprfServer::new, new_from_seed, new_with_key", "src/serialization.rs: VoprfServer::deserialize, PoprfServer::deserialize"])
p("Key derivation is RFC 9497 DeriveKeyPair",
  "new_from_seed returns the first non-zero HashToScalar(seed || I2OSP(len(info),2) || info || I2OSP(counter,1), \"DeriveKeyPair\" || contextString) for counter = 0..255, Error::Protocol exactly if all 256 are zero, and Error::DeriveKeyPair exactly if info is longer than 65535 bytes; the key is never zero and depends on nothing else.",
  "all seeds, infos and modes",
  "The retry loop and the failure exit are unreachable in tests.",
  ["src/common.rs: derive_key_internal, derive_keypair"])
p("Key derivation separates seed/info pairs",
  "For seeds of equal length, different (seed, info) pairs and different modes hash different (message, tag) pairs; for seeds of different lengths this fails: (s, [0,0]) and (s || [0,2], []) derive the same key.",
  "all seeds and infos",
  "Injectivity over all pairs; the counterexample is structural.",
  ["src/common.rs: derive_key_internal"])
p("Domain separation tags never collide across modes, purposes or ciphersuites",
  "The domain separation tags used for HashToGroup, HashToScalar, the proof seed and DeriveKeyPair in the three modes and for any ciphersuite identifier are label || \"OPRFV1-\" || mode || \"-\" || identifier and are pairwise different: equal tags imply equal label, mode and identifier.",
  "all labels, modes and ciphersuite identifiers",
  "Injectivity over all identifiers.",
  ["src/common.rs: Dst::new, Mode::to_u8"])
p("The finalize hash input is an injective encoding",
  "Two successful finalize or evaluate calls that return the same output for different (input, unblinded element) - or (input, info, element) in POPRF - exhibit a collision of the ciphersuite hash; in particular different keys or inputs give different outputs unless the hash collides.",
  "all inputs, infos, keys",
  "Injectivity over all inputs.",
  ["src/oprf.rs: finalize_after_unblind", "src/voprf.rs: finalize_after_unblind", "src/poprf.rs: finalize_after_unblind", "src/common.rs: server_evaluate_hash_input"])
p("The proof transcripts are injective encodings",
  "The challenge hash input determines (B, M, Z, t2, t3), the composite hash input determines (seed, index, C_i, D_i), and the framed info determines info.",
  "all group elements, indices and infos",
  "Injectivity over all elements.",
  ["src/common.rs: generate_proof, verify_proof, compute_composites", "src/poprf.rs: compute_tweak"])
p("POPRF client and server agree on the tweak",
  "For a server with public key = key*generator and every info: the client's tweaked key is the server's tweak times the generator, the client fails with Error::Protocol exactly when the server does, and with Error::Info exactly when info is longer than 65535 bytes on both sides.",
  "all keys and infos",
  "The Error::Protocol branch cannot be hit by tests.",
  ["src/poprf.rs: compute_tweak, compute_tweaked_key"])
p("The blinded message reveals nothing about the input",
  "For any two inputs that do not hash to the identity and any blinding factor of the first there is exactly one blinding factor of the second giving the same BlindedElement; over uniform non-zero blinds the message is distributed identically for all inputs.",
  "all inputs and blinding factors",
  "A statement about the whole distribution.",
  ["src/oprf.rs: OprfClient::blind", "src/common.rs: deterministic_blind_unchecked"])
p("The output does not depend on the blinding factor",
  "For every server and input, all RNGs lead to the same finalize output in each of the three modes.",
  "all pairs of RNG states",
  "Two-run property over all randomness.",
  ["src/oprf.rs", "src/voprf.rs", "src/poprf.rs"])
p("Serialization round-trips",
  "For each of the nine serializable types, deserialize(serialize(x)) returns x whenever the scalars in x are non-zero and the elements are not the identity, serialize(x) has exactly the advertised length, and different values have different encodings. (A Proof whose s or c scalar is zero does not round-trip: deserialize rejects it.)",
  "all values of all nine types",
  "All values.",
  ["src/serialization.rs"])
p("Deserialization is total and safe",
  "For every byte string, each deserialize returns a value or Error::Deserialization and never panics; strings shorter than the advertised length are rejected, bytes beyond it are ignored, and every accepted value holds only non-zero scalars and non-identity elements.",
  "all byte strings",
  "Proptest samples strings up to 200 bytes and checks only for crashes.",
  ["src/serialization.rs: deserialize_elem, deserialize_scalar, SliceExt::take_ext"])
p("Only documented errors are returned",
  "blind returns only Error::Input; VoprfClient::finalize only Input or ProofVerification; PoprfClient::finalize only Info, Input, Protocol or ProofVerification; evaluate only Input (plus Info and Protocol for POPRF); new_from_seed only DeriveKeyPair or Protocol; deserialize and new_with_key only Deserialization.",
  "all arguments",
  "All arguments and branches.",
  ["src/oprf.rs", "src/voprf.rs", "src/poprf.rs", "src/common.rs", "src/serialization.rs"])
p("No panics in the safe API",
  "No API call panics when given clients, servers, tweaks and proofs obtained from the safe API (constructors, blind, deserialize, serde deserialization of any document), arbitrary byte strings and arbitrary group elements, also after a panic was caught, except PoprfServer::batch_blind_evaluate on more than 65535 elements.",
  "all call sequences of the safe API",
  "The unwraps guard conditions for every input; reachability over all histories.",
  ["src/common.rs", "src/oprf.rs", "src/voprf.rs", "src/poprf.rs", "src/group/elliptic_curve.rs: invert_scalar"])
p("Input length limits",
  "finalize and evaluate return Error::Input exactly when the input is longer than 65535 bytes (or, for evaluate, hashes to the identity). The documentation also promises Error::Input from blind for empty and over-long inputs and Error::DeriveKeyPair when seed and info together exceed 65532 bytes: with the expand_message_xmd used by all built-in groups these promises are false.",
  "all input lengths",
  "Needs inputs of all lengths, including above 65535.",
  ["src/oprf.rs", "src/voprf.rs", "src/poprf.rs", "src/error.rs", "src/group/mod.rs"])
p("Inputs that hash to the identity",
  "RFC 9497 requires Blind and Evaluate to fail when the input hashes to the identity. Every evaluate returns Error::Input; blind does not check and returns Ok with the identity as the message, which the peer's deserialize rejects.",
  "all inputs hashing to the identity",
  "No such input is known for the real suites; the branch cannot be tested.",
  ["src/oprf.rs: OprfServer::evaluate", "src/common.rs: deterministic_blind_unchecked"])
p("Randomness consumption",
  "blind draws exactly one random scalar, a proof draws exactly one random scalar whatever the batch size, new draws ScalarLen bytes, and a batch call that fails with Error::Batch draws none, leaving the RNG untouched.",
  "all RNGs, batch sizes and error paths",
  "The RNG state after each path, for all RNGs.",
  ["src/common.rs: generate_proof", "src/oprf.rs: OprfClient::blind, OprfServer::new"])
p("Repeating RNG output across two proofs reveals the key",
  "If two proofs of the same server are produced from the same RNG state and their challenges differ, the private key is (s - s')/(c' - c). Conversely for every challenge and response there is exactly one nonce, so a single proof reveals nothing beyond the statement (the simulator's values equal the prover's).",
  "all keys, batches and RNG states",
  "Algebraic statement over all transcripts.",
  ["src/common.rs: generate_proof"])
p("Evaluation is a permutation of the non-identity elements",
  "blind_evaluate maps distinct messages to distinct messages and non-identity elements to non-identity elements (in each mode), so every reply to a message accepted by BlindedElement::deserialize survives EvaluationElement serialize/deserialize.",
  "all keys and elements",
  "All elements.",
  ["src/oprf.rs: OprfServer::blind_evaluate", "src/voprf.rs: batch_blind_evaluate_prepare", "src/poprf.rs: batch_blind_evaluate_prepare"])
p("Wire-level protocol runs are correct",
  "When every message (BlindedElement, EvaluationElement, Proof, public key) is serialized by the sender and deserialized by the receiver, an honest run in each mode still gives the PRF output, provided the proof scalars are non-zero.",
  "all keys, inputs, blinds and RNG states",
  "Composition of all steps for all values.",
  ["src/serialization.rs", "src/oprf.rs", "src/voprf.rs", "src/poprf.rs"])
p("Interleaved sessions with crashes and restores always finalize to the PRF value",
  "In every history of any number of concurrent client sessions with one server, in which clients and the server may be serialized, dropped and deserialized at any point and messages may be replayed or delivered in any order to the session they belong to, every output a session obtains is the PRF value of that session's input under the server's key.",
  "all finite interleavings and crash points",
  "All schedules and crash points.",
  ["src/oprf.rs", "src/voprf.rs", "src/serialization.rs"])
p("A verified session never outputs a wrong value whatever the network does",
  "In every history in which the adversary may deliver any evaluation element and any proof to any VOPRF session, every output obtained is the PRF value under the pinned public key, or the history exhibits one of the pinned hash events of the soundness property.",
  "all finite adversarial histories",
  "All adversarial message sequences.",
  ["src/voprf.rs: VoprfClient::finalize"])
p("Dropping a value leaves only zero bytes",
  "After drop the stored representation of every client, server, message, tweak and proof serializes to zero bytes only.",
  "all values of all types",
  "All values; the memory-level effect is outside the model.",
  ["src/oprf.rs", "src/voprf.rs", "src/poprf.rs", "src/common.rs"])
p("Serde round-trips and re-validates",
  "Serde deserialization of serde-serialized clients, servers, messages, proofs and tweaks returns the same value under the conditions of the byte serialization, and every serde-deserialized value holds only non-zero scalars and non-identity elements.",
  "all values and all serde documents",
  "All documents, including adversarial ones.",
  ["src/serialization.rs: serde::Element, serde::Scalar", "src/poprf.rs: PoprfPreparedTweak"])
p("The zero blinding factor of the danger API",
  "With deterministic_blind_unchecked and blind zero the message is the identity; finalize then panics for the NIST suites and for Ristretto255 returns an output that is independent of the server's reply and key.",
  "all inputs and replies",
  "All replies.",
  ["src/oprf.rs: OprfClient::deterministic_blind_unchecked", "src/group/elliptic_curve.rs: invert_scalar", "src/group/ristretto.rs: invert_scalar"])
p("The group implementations satisfy the Group contract",
  "If the curve libraries provide a prime-order group with the usual encodings, Ristretto255 and the generic elliptic-curve implementation satisfy everything the protocol code relies on. Ristretto255 reads exactly the canonical 32-byte encodings of elements other than the identity and of non-zero scalars; the elliptic-curve implementation reads exactly the SEC1 compressed, uncompressed and compact forms of points other than infinity. Everything else is Error::Deserialization. The identity and zero are written as zero bytes. random_scalar returns the first acceptable draw of the RNG (never zero), consuming nothing more, and loops for ever on an RNG that yields none.",
  "all byte strings, RNGs and slices",
  "All byte strings and RNGs, including RNGs that yield zero.",
  ["src/group/ristretto.rs", "src/group/elliptic_curve.rs"])
p("Secret keys shorter than the scalar length",
  "new_with_key accepts exactly the ScalarLen-byte canonical encodings of non-zero scalars for Ristretto255; for the elliptic-curve suites it additionally accepts keys of 24 to ScalarLen-1 bytes, read as zero-padded big-endian numbers.",
  "all byte strings",
  "All lengths.",
  ["src/group/ristretto.rs: deserialize_scalar", "src/group/elliptic_curve.rs: deserialize_scalar"])
p("A documented Group contract under which POPRF panics",
  "The Group trait documents that hash_to_scalar fails on inputs longer than 65535 bytes. For a custom group that does so, info of 65530 to 65535 bytes makes PoprfServer::blind_evaluate and PoprfClient::finalize panic instead of returning Error::Info; with the built-in groups they succeed.",
  "all groups obeying the documented contract, all infos",
  "Needs a group other than the built-in ones.",
  ["src/group/mod.rs: hash_to_scalar", "src/poprf.rs: compute_tweak, compute_tweaked_key"])
p("Wire format",
  "Every serialize returns exactly the advertised number of bytes, made of the fields in a fixed order: OprfClient = blind; VoprfClient and PoprfClient = blind, blinded element; OprfServer = private key; VoprfServer and PoprfServer = private key, public key; Proof = c, s; BlindedElement and EvaluationElement = the element. So two builds of the library, or any RFC 9497 implementation, agree on the bytes.",
  "all values of every serializable type",
  "All field values and all groups.",
  ["src/serialization.rs"])
p("Hashing to the group and to scalars follows RFC 9380",
  "hash_to_curve and hash_to_scalar of the built-in groups compute expand_message_xmd of RFC 9380 on the concatenation of the slices given (so slicing does not matter), for inputs and tags of any length (tags over 255 bytes are hashed first), then map: Ristretto255 64 bytes to a point or, little endian modulo the order, to a scalar; elliptic curves two field elements to the sum of two points, or one big-endian number modulo the order. They fail only for an empty tag, with Error::Input.",
  "all messages, tags and slicings",
  "All lengths and all ways to split a message.",
  ["src/group/ristretto.rs: hash_to_curve, hash_to_scalar", "src/group/elliptic_curve.rs: hash_to_curve, hash_to_scalar"])
p("Which byte strings stand for a value",
  "With Ristretto255, every value of every serializable type is accepted from exactly one byte string of the advertised length: its own serialization. With the elliptic-curve suites this holds for secret scalars and proofs, but each element has exactly one further accepted encoding of the advertised length (SEC1 compact, tag 05), for points whose canonical y is the one chosen, so messages of those suites are malleable on the wire without changing their meaning.",
  "all byte strings, all nine serializable types",
  "All byte strings.",
  ["src/serialization.rs", "src/group/ristretto.rs: deserialize_elem", "src/group/elliptic_curve.rs: deserialize_elem"])
p("The danger API",
  "With the danger feature: value and from_value_unchecked are inverse; deterministic_blind_unchecked never fails and reproduces blind given its blinding factor; derive_key computes the private key of new_from_seed, with the same errors. In every history of calls, including those functions on arbitrary scalars and elements, no call panics except PoprfServer::batch_blind_evaluate on more than 65535 elements and finalize or batch_finalize with a client whose blinding factor is zero; server keys and tweaks are never zero.",
  "all histories of calls, all scalars and elements",
  "All histories and adversarial raw values.",
  ["src/oprf.rs: deterministic_blind_unchecked, get_blind", "src/poprf.rs: from_value_unchecked, value", "src/common.rs: derive_key"])
p("Blinding factors and messages are uniformly distributed",
  "Counting over the bytes an RNG can deliver: with the elliptic-curve suites every non-zero scalar is drawn by the same number of tapes, hence every non-identity message is sent for the same number of tapes, whatever the input; zero is never drawn. With Ristretto255 each non-zero scalar, and each non-identity message, comes from floor(2^512/l) or one more of the 2^512 draws, a relative bias below 2^-259.",
  "all inputs, all messages, all numbers of draws",
  "A statement about all 2^512 random tapes.",
  ["src/group/ristretto.rs: random_scalar", "src/group/elliptic_curve.rs: random_scalar", "src/oprf.rs: blind", "src/voprf.rs: blind", "src/poprf.rs: blind"])
p("The elements of the NIST suites are exactly the points of the curve",
  "For the suites over the NIST curves, deserializing an element succeeds for exactly the SEC1 compressed, uncompressed and compact encodings of the points of the curve other than the identity (coordinates below the field prime that satisfy the curve equation) and returns the point encoded; every other string is Error::Deserialization; serializing writes the compressed form; and the elements together with the identity are the multiples of the standard base point by the scalars 0..n-1, each obtained exactly once, n being prime.",
  "every byte string, every point and every scalar",
  "the set of encodings and of points has more than 2^256 members; primality of the order and the group law are mathematical facts no test can settle",
  ["src/group/elliptic_curve.rs: Group for C", "src/group/elliptic_curve.rs: serialize_elem", "src/group/elliptic_curve.rs: deserialize_elem", "src/ciphersuite.rs: CipherSuite"])
p("Hashing in the NIST suites is that of RFC 9380",
  "For the suites over the NIST curves, hashing to the group is hash_to_curve of RFC 9380 with expand_message_xmd, the suite's hash and the simplified SWU map (section 6.6.2) applied to two field elements, and hashing to a scalar is hash_to_field into the scalar field, for every message and every non-empty tag, however they are sliced.",
  "every message, every non-empty domain separation tag, every slicing of both",
  "the optimised map (with its inversion-free fractions, square-root ratio and exceptional cases) has to agree with the definition for every one of the 2^256 or more field elements, including inputs no test reaches",
  ["src/group/elliptic_curve.rs: hash_to_curve", "src/group/elliptic_curve.rs: hash_to_scalar"])
p("The protocols work for the NIST suites without any assumption",
  "For the concrete suites over the NIST curves with their SHA-2 hashes, every run of OPRF, VOPRF and POPRF between an honest client and an honest server ends with both sides holding the hash RFC 9497 prescribes; nothing about the curve, the hash or the encodings is assumed.",
  "every private key, input, info string and stream of random bytes with an acceptable draw",
  "inputs, keys and randomness are unbounded; that the concrete curve satisfies the group laws is not testable",
  ["src/oprf.rs", "src/voprf.rs", "src/poprf.rs", "src/group/elliptic_curve.rs: Group for C"])
p("The elements of ristretto255 are exactly those of RFC 9496",
  "For ristretto255-SHA512, deserializing an element succeeds for exactly the 32-byte strings that RFC 9496 decodes, other than the identity: a non-negative number below 2^255-19, little endian, that stands for a point of Ed25519's curve; every other string is Error::Deserialization; serializing is the inverse; the identity is written as 32 zero bytes. Addition of elements is addition of points up to the four points that stand for an element. The elements are the multiples of the class of Ed25519's base point by the scalars 0..l-1, each obtained exactly once, l = 2^252+27742317777372353535851937790883648493 being prime.",
  "every byte string, every element and every scalar",
  "there are more than 2^252 elements; primality, the group law on classes of points and the uniqueness of encodings are mathematical facts no test can settle",
  ["src/group/ristretto.rs: serialize_elem", "src/group/ristretto.rs: deserialize_elem", "src/group/ristretto.rs: base_elem", "src/group/ristretto.rs: identity_elem"])
p("Hashing in the ristretto255 suite is that of RFC 9497 and RFC 9496",
  "For ristretto255-SHA512, hashing to the group is expand_message_xmd with SHA-512 to 64 bytes followed by the one-way map of RFC 9496 (each half, top bit cleared, mapped to a point; the points added), and hashing to a scalar is the same 64 bytes read little endian modulo l, for every message and every non-empty tag, however they are sliced; the RFC determines the element.",
  "every message, every non-empty domain separation tag, every slicing of both",
  "the map with its inverse square roots and exceptional cases has to agree with the definition for every field element",
  ["src/group/ristretto.rs: hash_to_curve", "src/group/ristretto.rs: hash_to_scalar"])
p("The protocols work for ristretto255-SHA512 without any assumption",
  "For the concrete suite ristretto255-SHA512, every run of OPRF, VOPRF and POPRF between an honest client and an honest server ends with both sides holding the hash RFC 9497 prescribes; nothing about the curve, the hash or the encodings is assumed.",
  "every private key, input, info string and stream of random bytes with an acceptable draw",
  "inputs, keys and randomness are unbounded; that the concrete group satisfies the group laws is not testable",
  ["src/oprf.rs", "src/voprf.rs", "src/poprf.rs", "src/group/ristretto.rs"])
p("Forging a proof for one item means guessing the hash",
  "Treating the hash to scalar as a uniformly random function: a server that evaluates it at most Q times, and chooses its private key (for POPRF also the public info), the evaluation element and the proof depending on the answers, makes an honest client's finalize return anything but the PRF value under that key with probability at most (Q+2)/q for VOPRF and (Q+3)/q for POPRF, q being the number of scalars. The server may be unbounded otherwise.",
  "all suites, inputs, blinding randomness, all adaptive servers and all numbers of hash queries",
  "a statement about the fraction of all hash functions and about all adversaries",
  ["src/common.rs: verify_proof", "src/common.rs: compute_composites", "src/voprf.rs: VoprfClient::finalize", "src/poprf.rs: PoprfClient::finalize"])
p("Forging a proof for a batch",
  "In the same model, for a private key (and public info) fixed beforehand, a server that evaluates the hash at most Q times makes some output of an honest batch_finalize of n items wrong with probability at most (Q+n+1)^n/q. The exponent is the code's (and the RFC's): the weight of an item depends only on the key, the index and the item, so whenever the weights of separately chosen wrong items cancel, the ordinary prover's proof is accepted and every wrong item is finalized with a wrong element (the first item, if the server likes, with the PRF value under another key); and any prepared list of wrong replies is accepted for at least 1 in q of the hash functions.",
  "all suites, batch sizes, inputs, randomness, all adaptive servers and numbers of hash queries",
  "a statement about the fraction of all hash functions and about all adversaries",
  ["src/common.rs: verify_proof", "src/common.rs: compute_composites", "src/voprf.rs: VoprfClient::batch_finalize", "src/poprf.rs: PoprfClient::batch_finalize"])

p("An output can only be known by hashing the evaluated element",
  "Treating the output hash as a uniformly random function, with any hash to group and hash to scalar: an attacker that calls a server with a fixed key as often as it likes (blind_evaluate and batch_blind_evaluate on elements of its choice, evaluate on inputs of its choice; POPRF with any info) and evaluates the hash as often as it likes, and then names n (input, output) pairs, has, with probability at least 1 - n/256^Nh, for every pair that is what evaluate returns either asked evaluate for that input (and info), or hashed the string that contains the input and the encoding of the evaluated element k*H(input). Replies and outputs for other inputs, other info strings or the same input without info give no more than that.",
  "all suites, keys, adaptive attackers without bound on their calls, hash queries or computation",
  "a statement about the fraction of all hash functions and about all adversaries",
  ["src/oprf.rs: OprfServer::evaluate", "src/oprf.rs: OprfServer::blind_evaluate", "src/voprf.rs: VoprfServer", "src/poprf.rs: PoprfServer", "src/common.rs: server_evaluate_hash_input", "src/common.rs: compute_composites"])

p("Proofs give nothing away",
  "Treating the hash to scalar as a uniformly random function: a program that talks to a VOPRF or POPRF server with any fixed key (blind_evaluate, batch_blind_evaluate and evaluate, with elements, inputs and info strings chosen adaptively, and with the hash at strings of its choice) cannot tell it from a simulator that does not know the key: the simulator is handed the evaluated elements and the outputs of evaluate, and makes up each proof as a pair of scalars drawn from the same set of q(q-1) pairs, changing the hash at one string. With n proofs and Q hash queries (those for the weights included) the probabilities of any verdict differ by at most n(Q+n)/(q-1). So proofs, even many, under one key, for related batches, reveal nothing about the key or the other evaluations beyond the replies they come with.",
  "all suites, keys, adaptive programs, numbers of proofs and of hash queries",
  "a statement about the fraction of all hash functions and nonces, and about all distinguishers",
  ["src/common.rs: generate_proof", "src/common.rs: compute_composites", "src/voprf.rs: VoprfServer::blind_evaluate", "src/voprf.rs: VoprfServer::batch_blind_evaluate", "src/poprf.rs: PoprfServer::blind_evaluate", "src/poprf.rs: PoprfServer::batch_blind_evaluate"])

p("Sessions give a server nothing about the inputs",
  "A server of any computing power, with keys, evaluation elements, proofs, public keys and info strings of its choice, that has honest clients open any number of sessions, each on one of two inputs it names, sees their messages, answers sessions singly or in batches, in any order and repeatedly, and sees each time whether finalize succeeded or with which error, learns nothing about which of the inputs the clients took: over all blinding factors, any verdict it may reach is reached exactly as often in both cases. (The two inputs must both be at most 65535 bytes or both longer, and neither may hash to the identity element.)",
  "all suites, all adaptive servers without bound on computation, all numbers of sessions, inputs, answers and interleavings",
  "a statement about all servers and the distribution of the blinding factors over arbitrarily many sessions",
  ["src/oprf.rs: OprfClient::blind", "src/oprf.rs: OprfClient::finalize", "src/voprf.rs: VoprfClient::blind", "src/voprf.rs: VoprfClient::finalize", "src/voprf.rs: VoprfClient::batch_finalize", "src/poprf.rs: PoprfClient::blind", "src/poprf.rs: PoprfClient::finalize", "src/poprf.rs: PoprfClient::batch_finalize"])

p("Outputs look random",
  "Treating the output hash as a uniformly random function, with any hash to group and hash to scalar and any fixed key: a program that calls the server as it likes and hashes as it likes gets from evaluate (which still returns errors as before) values that look like those of a random function of the input and the info that is independent of the hash and of the key: every verdict is reached exactly as often in both cases by runs in which the program does not hash the evaluated element of an input it also had evaluated, and such runs are equally likely. In base mode, if the key is drawn from a set of K scalars and used for evaluate only, a program of any computing power that hashes at most Q strings tells evaluate from a random function with advantage at most Q/K, however many inputs it evaluates.",
  "all suites, keys and sets of keys, adaptive programs without bound on their calls, hash queries or computation",
  "a statement about the fraction of all hash functions (and keys), and about all distinguishers",
  ["src/oprf.rs: OprfServer::evaluate", "src/voprf.rs: VoprfServer::evaluate", "src/poprf.rs: PoprfServer::evaluate", "src/common.rs: server_evaluate_hash_input"])

p("Batches and the collections they come in",
  "The batch functions read the collections the caller passes more than once and ask them for their length. With collections that yield the same items each time and know their number they behave as stated in the other properties. With any other collections: batch_finalize never panics; if it succeeds, the clients and messages yielded within the claimed number for the proof are a batch that passes on its own, and every output within that number whose client and message were yielded again is the output of that batch. Outputs behind the claimed number, or made from messages that differ the second time, are covered by no proof. The VOPRF server returns Error::Batch if the second traversal claims another number than the first yielded, or more than 65535; the POPRF server panics.",
  "all collections: claimed lengths, items on each traversal; all suites, clients, messages, proofs, keys",
  "the collections are the caller's code; tests use arrays and vectors",
  ["src/common.rs: compute_composites", "src/voprf.rs: verifiable_unblind", "src/voprf.rs: VoprfClient::batch_finalize", "src/voprf.rs: VoprfServer::batch_blind_evaluate", "src/poprf.rs: poprf_unblind", "src/poprf.rs: finalize_after_unblind", "src/poprf.rs: PoprfServer::batch_blind_evaluate"])

p("Sessions cannot be linked to outputs",
  "Clients open sessions on a list of inputs; a server of any computing power sees all messages and answers as it likes, with any proof; later it sees all outputs (or the error of the batch), without their order. If the server made all its answers with one scalar, it learns nothing about which session had which input: over all blinding factors, any verdict on the messages and the outputs is reached exactly as often if the inputs are dealt to the sessions in any other order. (None of the inputs may hash to the identity element.) A base-mode server that uses a key per session can link, as nothing makes it use one key; in the verifiable modes the proof makes it (see the soundness properties).",
  "all suites, servers, judges without bound on computation, lists of inputs and their permutations, keys, proofs and info",
  "a statement about all servers and the distribution of the blinding factors over arbitrarily many sessions",
  ["src/oprf.rs: OprfClient::blind", "src/oprf.rs: OprfClient::finalize", "src/voprf.rs: VoprfClient::blind", "src/voprf.rs: VoprfClient::batch_finalize", "src/poprf.rs: PoprfClient::blind", "src/poprf.rs: PoprfClient::batch_finalize"])

p("What a call does depends on lengths and numbers, not on secrets",
  "The operations a call performs (multiplications, additions and inversions in the group, hashing with the lengths of all strings, serialization, draws from the RNG) and the outcomes of the tests it branches on, in their order, are the same for any two calls of an API function whose inputs, seeds, key and info strings have the same lengths and whose batches have the same sizes: whatever the keys, blinding factors, inputs, elements, proofs and random numbers are. The exceptions are tests that make a call fail (does the proof verify, does the input hash to the identity, is the tweaked key zero, does the key decode) and whether a candidate for a derived key is zero, in which case another is computed.",
  "all suites, keys, blinding factors, inputs and strings of equal lengths, elements, proofs, RNGs and batch sizes",
  "a statement about pairs of executions for all secrets; a test sees the time of a few",
  ["src/common.rs: compute_composites", "src/common.rs: generate_proof", "src/common.rs: verify_proof", "src/common.rs: derive_key_internal", "src/common.rs: server_evaluate_hash_input", "src/oprf.rs: OprfClient", "src/oprf.rs: OprfServer", "src/voprf.rs: VoprfClient", "src/voprf.rs: VoprfServer", "src/poprf.rs: PoprfClient", "src/poprf.rs: PoprfServer"])

p("What a batch costs",
  "For every number n of elements: evaluating a batch takes the VOPRF server 2n+3 multiplications and n additions of elements, n+1 scalars hashed and one drawn (POPRF: 2n+4, n, n+2, one, and n inversions); finalizing it with all outputs takes the VOPRF client 3n+4 multiplications, 2n+2 additions, n inversions and n+1 scalars hashed (POPRF: 3n+5, 2n+3, n, n+2). Blinding takes one multiplication, finalizing in base mode one multiplication and one inversion, evaluate one multiplication (and in POPRF mode one inversion). Calls that fail never do more, whatever the arguments. Making a server tries at most 256 key candidates and takes at most one multiplication.",
  "all suites, batch sizes, arguments and RNGs",
  "an exact count for every batch size, and a bound for every failing call with any arguments",
  ["src/common.rs: compute_composites", "src/common.rs: generate_proof", "src/common.rs: verify_proof", "src/common.rs: derive_key_internal", "src/voprf.rs: VoprfServer::batch_blind_evaluate", "src/voprf.rs: VoprfClient::batch_finalize", "src/poprf.rs: PoprfServer::batch_blind_evaluate", "src/poprf.rs: PoprfClient::batch_finalize"])

p("Comparing, hashing and cloning values",
  "Provided the traits of the group's elements and scalars are coherent: values of every type of the API are == exactly if they are the same, and exactly if they serialize to the same bytes; cmp is a total order in which only equal values are Equal, partial_cmp agrees with it; no value feeds a hasher the beginning of what another feeds it (so values can be keys of hash maps and sets); a clone is the same value.",
  "all suites, all values of every public type, all coherent traits of elements and scalars",
  "laws about pairs and triples of all values",
  ["src/common.rs: BlindedElement", "src/common.rs: EvaluationElement", "src/common.rs: PreparedEvaluationElement", "src/common.rs: Proof", "src/oprf.rs: OprfClient", "src/oprf.rs: OprfServer", "src/voprf.rs: VoprfClient", "src/voprf.rs: VoprfServer", "src/poprf.rs: PoprfClient", "src/poprf.rs: PoprfServer", "src/poprf.rs: PoprfPreparedTweak"])

p("m evaluations give no more than m outputs",
  "A client that calls a server as it likes, hashes as it likes and ends with the right outputs of more inputs than it had elements evaluated (not counting inputs that the server evaluated in the clear; in POPRF mode, under one info string) solves the one-more Diffie-Hellman problem: from the strings it hashed one reads off the evaluated elements of more inputs than it had elements evaluated. In base mode this is a program that gets nothing but the multiplication of elements by the key, as often as the client got evaluations. Except for at most n in 256^Nh of the output hash functions, n being the number of outputs the client names.",
  "all suites, keys, RNGs, clients without bound on computation, calls and hashing",
  "a reduction for all clients, with a bound on the probability over the hash function",
  ["src/oprf.rs: OprfServer::blind_evaluate", "src/oprf.rs: OprfServer::evaluate", "src/voprf.rs: VoprfServer::batch_blind_evaluate", "src/voprf.rs: VoprfServer::evaluate", "src/poprf.rs: PoprfServer::batch_blind_evaluate", "src/poprf.rs: PoprfServer::evaluate", "src/common.rs: server_evaluate_hash_input"])

p("A key derived from a secret seed is as good as a random key",
  "In the random oracle model (hash to scalar): a program that asks for keys made by new_from_seed from one secret seed, for modes and key infos of its choice and as many as it likes, and hashes at most Q strings, tells them from keys made with an independent hash function with advantage at most Q/N, where N is the number of possible seeds. The same holds for servers made by new from random bytes (N = 256^Ns). Keys made with an independent hash function, for any number of different combinations of seed (of one length), mode and info, are uniform and independent: every list of non-zero scalars is as likely as every other; new_from_seed fails with probability exactly q^-256.",
  "all suites, programs without bound on computation and on the keys they ask for, sets of seeds of one length, modes, key infos",
  "a bound on probabilities over all hash functions for every program",
  ["src/common.rs: derive_key_internal", "src/common.rs: derive_keypair", "src/oprf.rs: OprfServer::new_from_seed", "src/voprf.rs: VoprfServer::new_from_seed", "src/poprf.rs: PoprfServer::new_from_seed"])

p("A base-mode server with a secret seed is a random function",
  "In the random oracle model (output hash and hash to scalar random): a program that has a base-mode server evaluate inputs of its choice, as many as it likes, with the server made by new_from_seed from a secret seed (and a key info of anyone's choice) or by new from random bytes, and hashes at most Q1 strings, and Q2 to scalars, gets answers it tells from those of a function chosen at random (and an error exactly for the inputs that cannot be evaluated) with advantage at most Q2/N + Q1/(q-1) + 1/q^256, where N is the number of possible seeds (256^Ns for new).",
  "all suites, key infos, programs without bound on computation and on the inputs evaluated, sets of seeds of one length",
  "a bound on probabilities over all hash functions for every program",
  ["src/oprf.rs: OprfServer::new", "src/oprf.rs: OprfServer::new_from_seed", "src/oprf.rs: OprfServer::evaluate", "src/common.rs: derive_key_internal", "src/common.rs: server_evaluate_hash_input"])

with open("/verif/properties.jsonl","w") as f:
    for x in P: f.write(json.dumps(x,ensure_ascii=False)+"\n")
print(len(P))
