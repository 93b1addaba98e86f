{
 "C04": [
  "partial",
  "True of every call except PoprfServer::evaluate: evaluate(input, None) hashes no info part at all, so it differs from evaluate(input, Some(&[])) and from the oblivious run. Refuted by a witness; a general collision argument shows the outputs always differ unless the hash collides."
 ],
 "C07": [
  "partial",
  "The last clause (PoprfServer::batch_blind_evaluate does not panic) is false of the code: proved that it panics for every list longer than 65535."
 ],
 "C08": [
  "proved",
  "C08_voprf_drops_clients shows the VOPRF function silently truncates."
 ],
 "C14": [
  "proved",
  "Includes the proof that deserialize accepts mismatched halves and that proofs of such a server are rejected up to an exhibited hash event."
 ],
 "C16": [
  "proved",
  "Equal-length seeds only, as stated; the different-length clause is proved false (C16_different_lengths_refuted), as stated in the property."
 ],
 "C46": [
  "proved",
  "P256-SHA256, P384-SHA384, P521-SHA512. The curve arithmetic of the crates p256, p384, p521 is modelled by affine formulas (NistCurve.v); primality of p and n and the order of the base point are checked by certificates."
 ],
 "C47": [
  "proved",
  "P256-SHA256, P384-SHA384, P521-SHA512."
 ],
 "C48": [
  "proved",
  "P256-SHA256, P384-SHA384, P521-SHA512; SHA-2 is modelled from FIPS 180-4 (Sha2.v)."
 ],
 "C49": [
  "proved",
  "curve25519-dalek's ristretto255 is modelled from RFC 9496 (Rist255.v) with affine coordinates; an element is represented by the point its encoding decodes to. Primality and the order of the base point are checked by certificates."
 ],
 "C50": [
  "proved",
  ""
 ],
 "C51": [
  "proved",
  "SHA-512 is modelled from FIPS 180-4 (Sha2.v)."
 ],
 "C52": [
  "proved",
  "Random oracle model: the hash to scalar is any function, probability is counting over all functions on any finite set of strings that includes those that can be queried. HashToGroup and the output hash are the suite's."
 ],
 "C53": [
  "proved",
  "The key is fixed before the game (as for a client that got the public key beforehand). C53_voprf_cancelling_errors and C53_poprf_cancelling_errors show the structure that makes the bound a power of Q. C53_builtin_numbers puts numbers in for the four built-in suites (2^80 hash queries; one item, and two)."
 ],
 "C54": [
  "proved",
  "The output hash is modelled as a function independent of HashToGroup and HashToScalar (which in the concrete suites are built from the same hash on strings with other prefixes): those two are arbitrary and fixed. C63 makes a one-more Diffie-Hellman solver of this."
 ],
 "C55": [
  "proved",
  "The RNG is any with states that yield given non-zero scalars (C55_tapes: one reading a tape, for the curve and ristretto groups); nonces are counted uniformly, C45 bounds the bias of ristretto255's sampling. C55_choices: the simulator's runs are as many as the fraction's denominator says. C30 is the exact statement for one proof. C55_builtin_suites: the four built-in suites meet the hypotheses of C52 to C56 (an enumeration of the scalars, an RNG that yields given scalars, the suite laws)."
 ],
 "C56": [
  "proved",
  "The verdict of a session is success or the error; outputs are not shown (with the server's key they are what the server can compute itself for each of the two inputs, C01-C03, C22; a server that uses several keys can tell sessions apart if it later sees their outputs, in any OPRF). The base mode has no batches: an answer to many sessions is an answer to each."
 ],
 "C57": [
  "proved",
  "The random function takes the input and the info as the caller passed it (None and Some of the empty string differ in the hash, C04). How often a program with a verifiable key or blind_evaluate can cross is a computational question (one-more Diffie-Hellman), not formalised; for base mode with evaluate only, C57_oprf_prf bounds it without assumption."
 ],
 "C58": [
  "proved",
  "len() and size_hint() of an iterator are taken to give the same number; items are finitely many. The uncovered theorems show the limits of the guarantee with the code as it is: a collection that claims fewer items than it yields gets outputs for messages no proof covers."
 ],
 "C59": [
  "proved",
  "Exact equality of counts over all sequences of nonzero blinding factors, for arbitrary servers and judges that ignore the order of the outputs. Runs whose answers are not all made with one scalar are not counted; C59_two_keys_case shows that base-mode servers can link then."
 ],
 "C60": [
  "proved",
  "C60_client_results and C60_server_results: the traced functions compute what the functions of the model compute. What happens inside an operation of the group and hash crates, and machine-level timing, are outside the model; drawing a scalar is one event (its rejection loop depends on the RNG only). Blinding factors are nonzero, as in all clients made by blind."
 ],
 "C61": [
  "proved",
  "Counts of events of the traced functions of C60; exact for calls that succeed, an upper bound for all."
 ],
 "C62": [
  "proved",
  "The derived implementations are written out as derive_where generates them; what the back ends implement for their element and scalar types is a hypothesis (each derived trait exists only if they implement it)."
 ],
 "C63": [
  "proved",
  "The output hash is a random function, independent of the other two hashes. Not shown: that the one-more Diffie-Hellman problem is hard (it is an assumption about the group). In base mode the solver is given as a program with access to multiplications only. So it is in the verifiable mode (C63_voprf_solver), where the hash to scalar is random too and the proofs are made up as in C55; the two bounds of that theorem are for a fixed function of the other kind each, and add up on average over both. C63_poprf_solver is the same for POPRF: there the solver multiplies by the inverse of the key plus a scalar of the caller's choice, which is a stronger problem than one-more Diffie-Hellman (it must find one more multiple for the scalar the info string hashes to)."
 ],
 "C64": [
  "proved",
  "Hash to scalar is a random function; hash to group and the output hash are arbitrary and fixed. Seeds of different lengths are excluded, since they can give the same key (C16). The program gets the keys themselves, so what it does with servers that hold them is covered as far as they can be run with the hash function it has."
 ],
 "C65": [
  "proved",
  "The two hash functions are random and independent, hash to group is arbitrary; a fresh server is the case of a uniform seed of Ns bytes. The finite sets of strings on which the functions vary are chosen in turn (hash to scalar first); any larger sets do. Stated for evaluate; with blind_evaluate the answers are multiples of the client's element and no longer random (what can be had then is in C57 and C63)."
 ]
}