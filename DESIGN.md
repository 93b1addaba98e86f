# A Rocq (Coq 8.16.1) model of facebook/voprf

## 1. Trusted base

* Coq's kernel (type checker and its bytecode evaluator `vm_compute`; no
  `native_compute`). `coqchk` re-checks every file without the evaluator.
* **Print Assumptions**: every theorem named in `MANIFEST.json` prints
  "Closed under the global context" (list in `ASSUMPTIONS.txt`, rewritten by
  `tools/assumptions.py`). No axiom is used, not even those of the standard
  library. (vcheck's whole-library list names `Coq.ssr.ssrunder` items, which
  are fields of a module type inside Coq's own distribution, not used here.)
* No functors, module types, section-less `Variable`s, kernel switches,
  plugins, mathcomp, Admitted.
* That the model says what the Rust code does. This was done by reading;
  section 2 lists the gaps. Two checks from outside: seeded bugs
  (`seeded/LOG.jsonl`) and the RFC 9497 test vectors in
  `src/tests/cfrg_vectors.rs` run through the model (section 6).

## 2. What is modelled, and what is not

Modelled function by function: `common.rs`, `oprf.rs`, `voprf.rs`, `poprf.rs`,
`serialization.rs`, `error.rs`, `util.rs`/`ciphersuite.rs`, `group/mod.rs`,
`group/ristretto.rs`, `group/elliptic_curve.rs`, including the functions only
exported with the features `danger` and `serde`. Every definition cites lines.

| part | representation |
|---|---|
| a call | an `outcome`: `Ok v`, `Err e`, `Panic`, or `Diverge` (a loop that draws from the RNG ran out of `fuel`; `fuel` is a parameter, theorems hold for all of it) |
| `&mut rng` | explicit state; `Rng` is an arbitrary deterministic state transformer |
| collections of a batch | lists; `Iters.v` has them as they are, traversal by traversal (C58) |
| `impl Iterator` results | lists of outcomes, forced by the caller, as the lazy Rust iterators are |
| `GenericArray<u8, N>` | lists of bytes; the length is a theorem (C41), not a type |
| `CS: CipherSuite` | a record; theorems quantify over every record, with `GroupLaws`/`SuiteLaws` (`Laws.v`) as explicit hypotheses where algebra is needed |
| zeroize | what is left in the stored fields after `drop` (C35) |
| serde | the serde data model (structs, sequences, tuples, bytes), not a concrete format (C36) |

External crates are not in /repo. They are modelled from their published
interface and source, from memory:

* `elliptic-curve` 0.13: `ExpandMsgXmd` (`Xmd.v`), `hash_to_scalar`,
  `hash_from_bytes`, optimised SSWU `osswu` (`NistCurve.v`), `sec1` 0.7 point
  decoding (tags 00, 02, 03, 04, 05), `NonZeroScalar`, `SecretKey::from_slice`
  (accepts 24..ScalarLen bytes), `invert`.
* `p256`, `p384`, `p521`: parameters from SEC 2 and RFC 9380; arithmetic by the *affine*
  formulas (the crates use complete projective ones; same function on points).
  The square root chosen for the compact tag 05 is an arbitrary function `pick`, so the
  theorems do not depend on it. `random` is rejection sampling.
* `curve25519-dalek` 4: an abstract record `Dalek` with laws `DalekLaws`, instantiated
  in `Rist255.v`: Decode, Encode, Equals, SQRT_RATIO_M1 and the one-way map of RFC 9496,
  statement by statement, on *affine* points of Ed25519's curve (dalek: extended
  coordinates). dalek's elements are points and its equality is Equals; the model's elements
  are the points that decoding gives, one per class, so equality is Leibniz equality.
* `sha2`: `Sha2.v` from FIPS 180-4 (compared with Python's hashlib on messages
  across the padding boundaries, outside Coq).

Not modelled (no theorem says anything about): time inside an operation of a group or hash crate (which operations run, and tests on them: C60, C61),
copies of secrets on the stack or left by moves, optimisation of zeroization, feature-flag
combinations, the Rust type system itself (which rules out wrong-length arrays),
iterators whose own code panics or never ends, allocation failure, `no_std`
matters, `Debug` output, and cryptographic
hardness (where a property needs it, the theorem exhibits the hash event or discrete
logarithm instead: C12, C13, C30, C34).

## 3. Files (rocq/theories)

| files | content |
|---|---|
| `Base`, `Traits` | bytes, outcomes, traits as records |
| `Common`, `Oprf`, `Voprf`, `Poprf`, `Serialization`, `Serde`, `Drop`, `Danger` | the crate |
| `Ristretto`, `Rist255`, `Rist25519`, `EllipticCurve`, `Xmd`, `NistCurve`, `Nist256`, `Nist384`, `Nist521`, `Sha2` | the built-in suites |
| `Derives` | the derived comparison, hashing and cloning traits |
| `Trace` | the API functions once more, recording every operation, string length and run-time test (C60 proves that the results are the same) |
| `Api`, `Sessions` | programs using the crate: stores of values and calls; clients and servers exchanging bytes, crashing and restarting |
| `Spec`, `XmdSpec`, `NistSpec`, `RistSpec`, start of `NistProps`, `SuiteRuns` | specifications, from RFC 9497, RFC 9380 and RFC 9496, not from the code; the `Prop*` files define the property-specific ones next to the theorems |
| `Laws` | prime-order group; hash functions do not fail |
| `Zq` | a lawful ciphersuite for every prime (used at q = 251 for the concrete cases) |
| `Reprogram` | a suite whose hash to scalar is changed at one point |
| `Guess` | naming a hash value that was not asked for; attacks on a server; a suite with any output hash |
| `ZkFacts` | counting runs with real proofs and with made-up proofs |
| `PrfFacts` | counting runs with hash values and with independent random values |
| `Oracle` | a suite with any hash to scalar; programs that query it; counting over all hash functions |
| `*Facts`, `Fq`, `Fermat`, `Pocklington`, `PowCert`, `HexNum`, `Weierstrass`, `Cyclic`, `CubicRoot`, `CubicPoly`, `Chain`, `NistCheck`, `Edwards`, `EChain`, `RistProps`, `RistCheck` | lemmas and library mathematics |
| `Cert*`, `Chain2..5*`, `Pow*` | numerical certificates written by `tools/gen_primes.py`, `tools/gen_chain.py`, `tools/gen_rist.py`, checked in Coq |
| `Prop*` | the property theorems, each followed by a concrete case meeting its hypotheses |

## 4. Plan per property

Statements are in `properties.jsonl`; theorem names in `MANIFEST.json`.

* C01, C02, C03 end-to-end runs: algebra from `GroupLaws`, result compared with `Spec.v`.
* C04 None = Some []: equality of the model functions; the `evaluate` clause is refuted by a computed witness, and for every suite by different hash inputs. **Partial**: that clause is false of the code.
* C05, C06 batches of any size: induction over the batch in `compute_composites`.
* C07, C08, C09: case analysis on lengths. **C07 partial**: `PoprfServer::batch_blind_evaluate` proved to panic for every list longer than 65535.
* C10, C11: verify_proof/generate_proof equal the RFC pseudo code.
* C12, C13: special soundness algebra; transcript injectivity; with `Reprogram`, extraction.
* C14, C15, C16: constructors; induction over the counter loop; explicit ambiguous pair.
* C17, C18, C19: injectivity of byte encodings.
* C20: algebra; C21, C22: bijection on blinds; corollary of C01-C03.
* C23, C24: from the group laws on (de)serialization.
* C25-C28: all branches; the reachability invariant "secret scalars are non-zero and keys match" over histories of API calls (`Api.v`).
* C29, C30: explicit RNG state; algebra; simulator with the reprogrammed hash.
* C31, C32: algebra, round trips.
* C33, C34: labelled transition systems over sessions, induction over histories.
* C35, C36: stored representation after drop; serde data model.
* C37, C44: danger API; a second transition system in `Danger.v`.
* C38, C39, C42: the two `Group` implementations, given the laws of the curve libraries.
* C40: a custom group that meets the documented contract (`Zq.v`).
* C41: lengths of every serialized value. C43: sets of accepted encodings.
* C45: counting RNG tapes.
* C46, C47, C48: the NIST suites with the curve and the hash made concrete: group law
  (`Weierstrass`), primality (`Pocklington`, `PowCert`), order of the base point (`Chain`), no point of
  order two (`CubicRoot`, `CubicPoly`), every point a multiple of the base point (`Cyclic`: fewer than 3n points, counted by
  x-coordinates), SSWU of the code = that of the RFC (`NistFacts`). No hypothesis about the curve or the hash is left.
* C49, C50, C51: the same for ristretto255: complete addition law on the twisted Edwards curve (`Edwards`),
  encoding and decoding as inverse bijections between classes of even points and numbers (`RistFacts`), exactly l
  classes (counted by encodings: fewer than 2l), the map against the relational definition of `RistSpec`.

* C52, C53: random oracle model. `Oracle`: a program with N queries gets one of at most B "bad" fresh answers for at most
  N*B/q of the functions. `RomFacts`: an accepted wrong batch means such an answer (the last weight that makes the errors
  cancel, or the one challenge for which a false statement has a response). A matching structure theorem shows cancelling errors are accepted.
* C54: the output hash is the random function (`Guess.with_digest`). `Guess.guess_bound`: a program that names n values is right at a
  string it has not asked for, for at most n/|range| of the functions, whatever it asked. An attack on the real server code is compiled
  to such a program (`PropUnpredict.compile`): the server's replies depend on the hash at one string per call only (the proof seed or the
  Finalize string), and those strings differ from the named ones because the framing is injective.
* C55: `ZkFacts`: a game tree whose nodes ask the hash or ask for a proof of a discrete-logarithm equality. Three counts of accepting runs: with
  nonces and the real hash (`real`), with (challenge, nonce) pairs and the hash changed (`simr`), with (challenge, response) pairs (`simc`); the
  last two are equal by a change of variables, the first two differ by the runs in which the challenge string was asked before (`bad`), at most
  n(Q+n)/(q-1) because the string determines the nonce. `PropZk` runs the servers' code on such trees.
  `PropRomSuites`: the built-in suites meet the hypotheses of C52 to C56.
* C56: `PropOblivious`: a spy is a tree (open a session on one of two inputs, answer, say). The two runs are kept in step by the relation "same
  messages, non-zero blinds, same side of the length limit": the clients' verdict depends on no more than that, and at each opening the change
  of variables r -> r*u, where H(x1) = u*H(x0), permutes the blinding factors.
* C57: `PrfFacts.prf_equal`: a tree asks the hash, or the value of an input, which is the hash at the input's own string or the value of an
  independent function. By induction on the tree, over the unasked points, runs that do not ask both are equally many. `PropPrf` runs the
  servers on such trees (the Finalize strings of different inputs differ, and differ from the seed strings); for a random key each hashed
  string belongs to at most one key.
* C58: `Iters`: the batch functions again, with each `into_iter()` a traversal of its own (claimed length, items). They reduce to the list
  functions on the first min(claimed, yielded) items.
* C59: `open_all` has clients open sessions with the API's blind functions; the server is a function from all messages to answers and a proof. If the answers
  are one scalar times the messages, each output depends on the input and the scalar only, and the messages are distributed alike for all inputs
  (multiplication of each blinding factor by a constant permutes the factors). Proof by induction on the sessions.
* C60: `Trace` repeats each function in a writer monad whose events are the group, hash and RNG operations with the lengths of the strings, and the outcomes of tests. Erasing
  the events gives the functions of the model (`TraceFacts`). Relational proof: two calls with arguments of the same shape give the same events, or part at a listed test;
  a small relational logic (`al`) with one rule per construct. Lengths of hashes and of serialized elements and scalars are laws.
* C61: count the events of each kind, by induction over the batch; exact for calls that succeed, a bound for all.
* C62: the derived traits field by field over arbitrary traits of elements and scalars; coherent if those are. Equality and bytes via the injectivity of C23.
* C63: the base-mode client as a program with multiplications only (`solver_of`), the hashed strings parsed back (`candidate`); by C54, outputs of which the string was not hashed are right with chance n/256^Nh only, and the others' elements are among the candidates. The verifiable modes: the same candidates from the strings hashed in the play with the server. `PropSolver`: in VOPRF mode the client with both hashes random, split into an attacker (hash to scalar fixed, C54) and a distinguisher (output hash fixed, C55), which say the same by computation of the two suites (`with_digest` and `with_oracle` commute); C55's simulator then needs multiplications only. POPRF likewise, with the inverse of the key plus any scalar; the distinguisher computes the hash of the info string in the end.
* C64: `PropDerived`: a program is a tree that asks the hash or up to 256 values of key candidates; `PrfFacts.prf_equal` with the strings of a seed, a hashed string belongs to at most one seed. Uniformity: multiplying the values at the strings of one request by a constant permutes the functions and multiplies the key.
* C53, numbers: `PropNumbers`: the bounds of C52 and C53 for the built-in suites' group orders and 2^80 hash queries.
* C55, numbers: `PropZkNumbers`: C55 for the built-in suites, 2^80 hash queries and 2^40 proofs.
* C65: `PropSeeded`: C64 (secret seed for independent hash function), its uniformity (that key for a uniform one, except for the q^-256 failures) and C57 (uniform key for a random function) in a row; the three bounds add up by a triangle inequality for fractions, each step averaged over the hash functions it does not touch. `PropSeedNumbers`: the bounds of C64 and C65 for the built-in suites and 2^80 hash queries.

## 5. Where the code and its documentation or the RFC differ

Found while proving; each is a theorem unless marked (note).

1. `PoprfServer::evaluate(input, None)` leaves out the info part of the hash input, unlike every other call (C04).
2. `PoprfServer::batch_blind_evaluate` panics for more than 65535 elements (C07, C26).
3. `VoprfClient::batch_finalize` does not compare the number of inputs with the number of clients (C08).
4. `VoprfServer`/`PoprfServer::deserialize` do not check that the public key belongs to the private key (C14).
5. `new_from_seed`: seed and info are concatenated after a length prefix of info only; pairs with seeds of different lengths can derive the same key (C16).
6. A `Proof` with a zero scalar can be made and serialized, but not deserialized (C23, C32).
7. `deserialize` ignores trailing bytes (C24).
8. The docs promise `Error::Input` for empty or over-long inputs of `blind`, and `Error::DeriveKeyPair` when seed + info exceed u16::MAX - 3: neither is so (C27).
9. `blind` does not reject an input that hashes to the identity, `evaluate` does (C28).
10. A zero blind handed to the danger API: the NIST suites panic in `finalize`, ristretto255 gives an output that does not depend on the server (C37, C44).
11. The NIST `new_with_key` accepts keys of 24..ScalarLen-1 bytes (C39); the NIST `deserialize` accepts uncompressed and compact (tag 05) points (C38, C43).
12. Under the documented `Group` contract an info of 65530..65535 bytes makes POPRF panic (C40).
13. (note) Cargo's default features enable `dep:serde` but not the feature `serde`, although lib.rs says it is on by default.
14. (note) The docs of `PoprfServer::evaluate` list only `Error::Input`; it also returns `Info` and `Protocol`.
15. As in RFC 9497, the weight of an item in a batch proof does not depend on the other items, so a server can prepare wrong
   items separately and combine those whose weighted errors cancel; the soundness bound for n items is (Q+n+1)^n/q instead of about Q/q, and of m^n lists made from m candidates per item m^n/q are
   accepted on average (C53, VOPRF; `PropCancel.v` has the cancelling errors for POPRF too). (note) Finding them is the generalised birthday problem: with Wagner's algorithm and n = 1024 items about
   2^23 candidates per item would do for a 252-bit order, so batch proofs do not give 128-bit soundness against a malicious server.
16. `batch_finalize` checks the proof for as many items as the collections claim to have, on one traversal, and makes the outputs from another; a collection that claims fewer items than it yields gets outputs no proof covers. `PoprfServer::batch_blind_evaluate` panics if the second traversal claims another number of elements (C58).

## 6. Tests of the theorems and of the model

* `tools/mutants.py` / `tools/mutate.py`: realistic bugs put into a scratch copy of the model; results in `seeded/LOG.jsonl`.
* `tools/protocol.py`: wrong protocols, the code and `Spec.v` edited alike, so that only the security and injectivity theorems can notice; every one is noticed by some.
* `tools/run_vectors.py`: the RFC 9497 vectors of the repository's own tests, evaluated in the model (not part of the build; minutes per vector). Results so far in `tools/vectors.log`.
* Build with coqchk: about 24 minutes on the 4-core box.
