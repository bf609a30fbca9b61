{"id": "C01", "title": "The whole credential protocol completes", "statement": "For every choice of system parameters, every issuer created for them, every phone number of 1 to 27 bytes and every output of every random source: the issuance that the issuer makes for the number is accepted by that user's obtain_finish, the presentation the user then shows for a roster entry made for the same number is accepted by the issuer's verify, and verify_roster_membership on the result succeeds and returns exactly the commitment stored in the roster entry.", "quantifier": "all system parameters, issuer keys, phone numbers (1..27 bytes, any byte values), roster openings, and all outputs of the caller's RNG, of the transcript RNGs and of thread_rng", "why_tests_cant": "Tests run a handful of random seeds; a failure confined to special scalars (a zero re-randomiser, an identity nonce, a zero challenge) is never sampled.", "anchors": ["signal-credential/src/issuer.rs: SignalIssuer::issue, SignalIssuer::verify, SignalIssuer::verify_roster_membership", "signal-credential/src/user.rs: SignalUser::obtain_finish, SignalUser::show", "aeonflux/src/issuer.rs: Issuer::issue, Issuer::verify", "aeonflux/src/user.rs: User::obtain_finish, User::show"]}
{"id": "C02", "title": "The byte-level C API protocol completes with the documented lengths", "statement": "Running the protocol only through the C entry points, handing each call the exact bytes the previous call wrote to its buffer, succeeds at every step for every seed and every phone number of 1 to 27 bytes, in any memory that holds the arguments, and the results have the lengths the header documents (64, 96, 160, 32, 328, 288, 64, 448, 448), the last step returning the 32 bytes of the roster commitment that remove_opening gives.", "quantifier": "all 32-byte seeds, all phone numbers of 1..27 bytes, all thread_rng outputs, all external RNG functions for which the parameter search terminates", "why_tests_cant": "The serialised state is decoded again at each step, so corner values (all-zero encodings, reduced 27-byte numbers) matter; random tests never hit them.", "anchors": ["ffi/src/c.rs: system_parameters_create .. issuer_verify_roster_membership", "ffi/src/include/credential.h", "signal-credential/src/user.rs: SignalUser::from_bytes"]}
{"id": "C03", "title": "A MAC made by a key verifies under that key", "statement": "SecretKey::mac succeeds exactly when the message has as many scalars as the key, and the tag it returns verifies for that message under that key for every nonce except the one that makes the nonce point the group basepoint, for which verification is always refused.", "quantifier": "all secret keys of any length, all messages, all RNG outputs", "why_tests_cant": "The single failing nonce has probability 2^-252; a test cannot find it, nor rule out others.", "anchors": ["aeonflux/src/amacs.rs: SecretKey::mac, SecretKey::verify"]}
{"id": "C04", "title": "MAC verification pins down the message", "statement": "For a tag with a non-identity nonce, verify accepts a message of the key's length only if the tag's MAC equals (x0 + sum xi*mi) times the nonce; so with one attribute and a non-zero key scalar, a tag is accepted for at most one attribute value modulo the group order.", "quantifier": "all secret keys, tags and messages", "why_tests_cant": "Claims about the absence of any second accepted message range over a 2^252-size space.", "anchors": ["aeonflux/src/amacs.rs: SecretKey::verify"]}
{"id": "C05", "title": "MAC verification rejects forged tags (identity nonce)", "statement": "verify must not accept a tag nobody computed with the key. It should reject the tag whose nonce and MAC are both the identity; the code compares the nonce with the basepoint instead, so that tag is accepted for every key and every message.", "quantifier": "all secret keys and all messages", "why_tests_cant": "The existing test only checks honest tags; a universal forgery needs a statement over all keys.", "anchors": ["aeonflux/src/amacs.rs: SecretKey::verify", "aeonflux/src/amacs.rs: Tag"]}
{"id": "C06", "title": "MAC verification checks the message length", "statement": "verify should accept only messages with as many scalars as the key has attribute keys, as mac does. It does not: extra scalars are ignored and missing ones count as zero, so an accepted message stays accepted when arbitrary scalars are appended to a full-length message.", "quantifier": "all secret keys, tags, messages and extensions", "why_tests_cant": "Tests use one length only.", "anchors": ["aeonflux/src/amacs.rs: SecretKey::verify"]}
{"id": "C07", "title": "Re-randomising a tag preserves validity and nothing else", "statement": "Applying any re-randomisation scalar to a tag multiplies both components by it; a tag satisfying the MAC equation for a message still satisfies it, and for a non-zero scalar a tag that did not satisfy it still does not.", "quantifier": "all tags, keys, messages and re-randomisation scalars", "why_tests_cant": "Equivalence in both directions over all scalars is not testable.", "anchors": ["aeonflux/src/amacs.rs: Rerandomization"]}
{"id": "C08", "title": "Two tags with one nonce let anybody compute tags for every message", "statement": "If an issuer produces two single-attribute tags with the same nonce for two different attribute values, then a public computation on the two tags yields a tag satisfying the MAC equation for every attribute value. Issuing twice from the same 32-byte seed produces such a pair, because the RNG used for the nonce does not depend on the attribute.", "quantifier": "all keys, all pairs of distinct attributes, all target attributes, all seeds", "why_tests_cant": "A relation between two executions and a third value chosen later.", "anchors": ["aeonflux/src/issuer.rs: Issuer::issue", "ffi/src/c.rs: issuer_issue"]}
{"id": "C09", "title": "Issue succeeds exactly when key and attributes fit", "statement": "Issuer::issue never panics; it returns NoIssuerParameters when the public key is empty, otherwise NoIssuerKey when the secret key is empty, otherwise MacCreation when the number of attributes differs from the number of attribute keys, and otherwise a credential carrying exactly the requested attributes and a tag satisfying the MAC equation.", "quantifier": "all issuers (including ones decoded from bytes), all attribute lists, all RNG outputs", "why_tests_cant": "Error precedence and panic freedom over all malformed keys.", "anchors": ["aeonflux/src/issuer.rs: Issuer::issue", "aeonflux/src/errors.rs: From<MacError> for CredentialError"]}
{"id": "C10", "title": "Issuance proofs are complete", "statement": "The proof attached to an issuance by an issuer whose public key matches its secret key verifies, for every parameters, key, single attribute and randomness.", "quantifier": "all system parameters, consistent one-attribute issuers, attributes, randomness", "why_tests_cant": "Covers zero challenges, zero nonces and identity points that random tests never see.", "anchors": ["aeonflux/src/proofs.rs: issuance_revealed::Proof::create, issuance_revealed::Proof::verify"]}
{"id": "C11", "title": "Accepted issuance proofs are sound", "statement": "From two accepting issuance proofs for the same issuance whose recomputed commitments agree and whose challenges differ, a witness is computed: x0, x1, x0~ and m1x1 with Q = (x0+m1x1)P, Cx0 = x0 g + x0~ h and X1 = x1 h.", "quantifier": "all public values, all pairs of proofs, all challenge functions", "why_tests_cant": "Knowledge soundness is a statement about all pairs of transcripts, not about single runs.", "anchors": ["aeonflux/src/proofs.rs: issuance_revealed::Proof::verify", "aeonflux/src/user.rs: User::obtain_finish"]}
{"id": "C12", "title": "A user only stores a credential that is a valid MAC on its attributes", "statement": "obtain_finish should store only credentials whose tag authenticates the stored attributes under the issuer's key. It does not: acceptance does not depend on the attributes at all, so any accepted issuance stays accepted with its attributes replaced by anything.", "quantifier": "all users, issuances and replacement attributes", "why_tests_cant": "Independence from an input is a statement over all values of the input.", "anchors": ["aeonflux/src/user.rs: User::obtain_finish", "aeonflux/src/proofs.rs: issuance_revealed"]}
{"id": "C13", "title": "A Signal user only stores a credential for its own phone number", "statement": "SignalUser::obtain_finish should reject a credential whose attribute is not the user's phone number. It does not: an honest issuance for a different number is accepted and stored.", "quantifier": "all pairs of phone numbers, all issuers and randomness", "why_tests_cant": "Existing tests only use matching numbers; the failure is universal.", "anchors": ["signal-credential/src/user.rs: SignalUser::obtain_finish"]}
{"id": "C14", "title": "All users of one issuer are served with the same key", "statement": "A user should be able to detect an issuer that uses a different x0 per user, because that makes users linkable. It cannot: for every x0' an issuance computed with x0' in place of x0 is accepted under the same published issuer parameters.", "quantifier": "all issuers, all replacement scalars x0', all attributes and randomness", "why_tests_cant": "A statement about a malicious issuer's choices.", "anchors": ["aeonflux/src/issuer.rs: Issuer::issue", "aeonflux/src/user.rs: User::obtain_finish"]}
{"id": "C15", "title": "A failed obtain_finish leaves the user unchanged; a successful one only sets the credential", "statement": "In any sequence of obtain_finish calls the stored credential is the one from the last accepted issuance (the initial one if none was accepted), and system parameters, issuer parameters, key and phone number never change.", "quantifier": "all histories of obtain_finish calls with arbitrary issuances (present or absent), all initial users", "why_tests_cant": "Unbounded histories.", "anchors": ["aeonflux/src/user.rs: User::obtain_finish", "signal-credential/src/user.rs: SignalUser::obtain_finish"]}
{"id": "C16", "title": "Presentations of a valid credential are accepted", "statement": "For every user holding a credential whose tag satisfies the MAC equation under a consistent issuer key, show succeeds and its presentation is accepted by that issuer's verify, for every randomness, including a zero re-randomiser.", "quantifier": "all issuers, credentials, randomness", "why_tests_cant": "Probability-2^-252 corner cases and all credentials, including ones not made by the code.", "anchors": ["aeonflux/src/user.rs: User::show", "aeonflux/src/issuer.rs: Issuer::verify", "aeonflux/src/proofs.rs: valid_credential"]}
{"id": "C17", "title": "A presentation of an invalid credential is rejected", "statement": "If the shown credential does not satisfy the MAC equation and its re-randomised nonce is not the identity, the issuer accepts the honest presentation of it only if the challenge is zero or the challenge function collides on two different transcripts.", "quantifier": "all credentials with a wrong tag, all issuers and randomness, all challenge functions", "why_tests_cant": "Rejection of every invalid credential cannot be sampled.", "anchors": ["aeonflux/src/user.rs: User::show", "aeonflux/src/issuer.rs: Issuer::verify"]}
{"id": "C18", "title": "Accepted presentations are sound", "statement": "From two accepting presentations of the same values (P, CQ, Cm0) with agreeing recomputed commitments and different challenges, one computes m, z and zQ with Cm0 = mP + zA such that the tag (P, CQ - zQ A) satisfies the issuer's MAC equation for m.", "quantifier": "all issuers, all presentation values, all pairs of accepting proofs, all challenge functions", "why_tests_cant": "Knowledge soundness is about all adversarial proofs.", "anchors": ["aeonflux/src/issuer.rs: Issuer::verify", "aeonflux/src/proofs.rs: valid_credential::Proof::verify"]}
{"id": "C19", "title": "Only credential holders can make accepted presentations", "statement": "verify should only accept presentations derived from an issued credential. It accepts ones computed from public parameters alone: with the identity as nonce, anybody who knows the system parameters and the issuer's public key can make an accepted presentation, for every choice of attribute and blinding scalars.", "quantifier": "all issuers with consistent keys, all attribute and blinding scalars, all challenge functions", "why_tests_cant": "A universal forgery is a statement about inputs no honest test constructs.", "anchors": ["aeonflux/src/issuer.rs: Issuer::verify", "signal-credential/src/issuer.rs: SignalIssuer::verify"]}
{"id": "C20", "title": "Only roster members can prove roster membership", "statement": "verify_roster_membership after verify should establish that the presenter holds a credential for the phone number in the roster entry. It does not: with the identity as nonce, anybody knowing an opening of a roster commitment, but having no credential, passes both checks.", "quantifier": "all issuers with consistent keys, all roster entries with known opening, all challenge functions", "why_tests_cant": "As above: no honest test builds the forged input.", "anchors": ["signal-credential/src/issuer.rs: SignalIssuer::verify, SignalIssuer::verify_roster_membership"]}
{"id": "C21", "title": "Roster membership proofs are sound", "statement": "From two accepting membership proofs for the same presentation values with agreeing recomputed commitments and different challenges, one computes m, z0, z1 with Cm0 = mP + z0 h and roster commitment = m h + z1 g; together with presentation soundness, for P not the identity, the number in the roster is the authenticated one, or a non-trivial relation between P and h is computed.", "quantifier": "all parameters, presentation values, pairs of accepting proofs, challenge functions", "why_tests_cant": "Adversarial proofs range over an unbounded space.", "anchors": ["aeonflux/src/proofs.rs: committed_values_equal::Proof::verify", "signal-credential/src/issuer.rs: verify_roster_membership"]}
{"id": "C22", "title": "A user cannot prove membership with a roster entry for another number", "statement": "If the honest show is run with a roster entry whose commitment is not to the credential's attribute under the supplied opening, verify_roster_membership accepts the result only if the challenge is zero or the challenge function collides; and for h other than the identity entries for two different accepted phone numbers are always of that kind.", "quantifier": "all users, entries, numbers of 1..27 bytes, randomness and challenge functions", "why_tests_cant": "Rejection for every other number and every randomness.", "anchors": ["signal-credential/src/user.rs: SignalUser::show", "signal-credential/src/issuer.rs: verify_roster_membership"]}
{"id": "C23", "title": "Presentations are unlinkable", "statement": "Given two credentials that are both valid under the same issuer key (for any attributes) and any presentation made from the first with a non-identity nonce, there is exactly one choice of random scalars with which the second credential yields the identical presentation, proof included; so a presentation carries no information on which credential made it.", "quantifier": "all issuers, all pairs of valid credentials with non-identity nonces, all random scalars, all challenge functions", "why_tests_cant": "A statement about the whole distribution of presentations.", "anchors": ["aeonflux/src/user.rs: User::show"]}
{"id": "C24", "title": "Reusing a seed makes presentations linkable", "statement": "The values (nonce, commitment to the MAC, attribute commitment) in a presentation are a function of the user state and the caller's RNG output alone: two shows with the same seed agree on all three for every thread_rng output.", "quantifier": "all users, seeds and thread_rng outputs", "why_tests_cant": "A relation between two executions.", "anchors": ["aeonflux/src/user.rs: User::show", "ffi/src/c.rs: user_show"]}
{"id": "C25", "title": "VerifiedSignalCredential values come from successful verification", "statement": "A VerifiedSignalCredential should only exist for a presentation verify accepted. It can be decoded from the bytes of any well-formed presentation: decoding accepts exactly the bytes the unverified type accepts, and verify_roster_membership accepts a value that verify rejects.", "quantifier": "all byte strings; existence of a rejected but membership-accepted presentation", "why_tests_cant": "A type-level guarantee over all byte strings.", "anchors": ["signal-credential/src/credential.rs: VerifiedSignalCredential::from_bytes", "ffi/src/c.rs: issuer_verify_roster_membership"]}
{"id": "C26", "title": "Phone number encoding is injective", "statement": "Two byte strings of at most 27 bytes that try_from_bytes encodes to the same attribute are equal, and two decimal strings of at most 27 digits that try_from_string encodes to the same attribute are equal.", "quantifier": "all pairs of byte strings / decimal strings of length 0..27, including length 27 where the encoding exceeds the group order and is reduced", "why_tests_cant": "Quadratically many pairs of 2^216 strings.", "anchors": ["signal-credential/src/phone_number.rs: PhoneNumber::try_from_bytes, PhoneNumber::try_from_string"]}
{"id": "C27", "title": "Phone number encoding rejects over-long input without panicking", "statement": "The documentation promises LengthExceeded for numbers that do not fit. try_from_bytes and try_from_string return LengthExceeded for length above 32, but panic for every input of length 28 to 32, and succeed for every input of at most 27 (for strings also with characters other than digits, C58).", "quantifier": "all byte strings and all strings of every length", "why_tests_cant": "Existing tests use one number; the panicking window is reachable from the C API with any content.", "anchors": ["signal-credential/src/phone_number.rs: PhoneNumber::try_from_bytes, PhoneNumber::try_from_string"]}
{"id": "C28", "title": "Phone numbers convert back to the string they came from", "statement": "For every decimal string of 1 to 26 digits, converting to a PhoneNumber and back gives the same string. It fails for the empty string (13 zeros come back) and for 27-digit strings (the encoding is reduced modulo the group order), and a PhoneNumber decoded from arbitrary bytes can make the conversion panic.", "quantifier": "all decimal strings of length 1..26; witnesses for 0, 27 and arbitrary bytes", "why_tests_cant": "10^26 strings.", "anchors": ["signal-credential/src/phone_number.rs: From<PhoneNumber> for String"]}
{"id": "C29", "title": "Roster entries open exactly to their number", "statement": "RosterEntryCommitment::open succeeds for the number the entry was created for, and for any number it succeeds exactly when commitment = number*h + opening*g; when h is not the identity an entry opens, with its own opening, to at most one number of 1..27 bytes.", "quantifier": "all parameters, numbers, openings, RNG outputs", "why_tests_cant": "Uniqueness over all numbers.", "anchors": ["signal-credential/src/phone_number.rs: RosterEntryCommitment::create, RosterEntryCommitment::open, CommittedPhoneNumber"]}
{"id": "C30", "title": "Commitments are hiding and binding", "statement": "A Pedersen commitment opens exactly to (value, nonce) pairs with commitment = value + nonce*basepoint; for every two values each commitment to one is a commitment to the other under exactly one nonce; two openings of one committed phone number to different numbers yield the discrete logarithm of h to base g.", "quantifier": "all values, nonces, basepoints other than the identity, numbers", "why_tests_cant": "Perfect hiding and binding are statements about all values.", "anchors": ["aeonflux/src/pedersen.rs: Commitment::to, Commitment::open", "signal-credential/src/phone_number.rs: CommittedPhoneNumber"]}
{"id": "C31", "title": "ElGamal decrypts what it encrypted and adds homomorphically", "statement": "Decrypting with the matching secret key returns the plaintext for every nonce; component-wise sums of ciphertexts decrypt to the sum of plaintexts; decrypting with a key not congruent to the matching one gives a different point whenever the nonce is not zero.", "quantifier": "all keys, messages, nonces", "why_tests_cant": "Universal over keys and nonces.", "anchors": ["aeonflux/src/elgamal.rs: PublicKey::encrypt, SecretKey::decrypt, Add for Encryption"]}
{"id": "C32", "title": "Encodings have fixed lengths and layouts", "statement": "to_bytes of system parameters, tags, one-attribute keys, credentials, requests, issuances, presentations, issuers, users and roster entries always returns the documented number of bytes with the fields at the documented offsets.", "quantifier": "all values of each type (with the documented number of attributes)", "why_tests_cant": "All values of all types.", "anchors": ["aeonflux/src/*.rs: to_bytes", "signal-credential/src/*.rs: to_bytes", "ffi/src/include/credential.h"]}
{"id": "C33", "title": "Decoding inverts encoding", "statement": "For every well-formed value of each serialisable type, from_bytes(to_bytes(v)) returns v; for users this holds exactly when there is one issuer key, at most one attribute, and neither key nor credential encodes to all zeros.", "quantifier": "all well-formed values of each type (canonical scalars, arbitrary points)", "why_tests_cant": "Value-dependent exceptions (all-zero encodings) have negligible probability.", "anchors": ["aeonflux/src/*.rs: from_bytes, to_bytes", "signal-credential/src/*.rs: from_bytes, to_bytes"]}
{"id": "C34", "title": "Accepted encodings are canonical", "statement": "For the fixed-format types, bytes accepted by from_bytes are exactly the bytes to_bytes gives for the decoded value, so no two byte strings decode to the same value. This fails for issuances, presentations and commitments, which accept trailing bytes, and for phone numbers and roster openings, which accept scalars with the top bit set or above the group order.", "quantifier": "all byte strings", "why_tests_cant": "All byte strings, and explicit exceptions.", "anchors": ["aeonflux/src/credential.rs: CredentialIssuance::from_bytes, CredentialPresentation::from_bytes", "aeonflux/src/pedersen.rs: Commitment::from_bytes", "signal-credential/src/phone_number.rs: PhoneNumber::from_bytes, RosterEntryCommitment::from_bytes"]}
{"id": "C35", "title": "Decoders never panic on untrusted bytes", "statement": "from_bytes should return an error on every malformed input. System parameters, tags, public keys, credentials, requests, users and issuers do; the exact sets of inputs on which secret keys, keypairs, commitments, issuances, presentations, roster entries, ElGamal keys and Signal users panic are characterised, and each is non-empty.", "quantifier": "all byte strings of every length, both with and without integer overflow checks", "why_tests_cant": "All byte strings of every length.", "anchors": ["aeonflux/src/amacs.rs: SecretKey::from_bytes, Keypair::from_bytes", "aeonflux/src/credential.rs", "signal-credential/src/credential.rs", "signal-credential/src/user.rs", "signal-credential/src/phone_number.rs"]}
{"id": "C36", "title": "Verification never panics on decoded presentations", "statement": "Issuer::verify on a presentation obtained from bytes never panics when the issuer was decoded from bytes or created; on API-built presentations it panics exactly when there are no blinded attributes, no issuer key, or more attributes than keys.", "quantifier": "all issuers, all presentations", "why_tests_cant": "All malformed structures.", "anchors": ["aeonflux/src/issuer.rs: Issuer::verify"]}
{"id": "C37", "title": "Show never panics for users built by the API", "statement": "show returns MissingData exactly when no credential is stored; with a credential it panics exactly when an index is out of range (no attributes, no issuer key), and never for users decoded from bytes or whose credential came from a decoded issuance with a non-empty issuer key.", "quantifier": "all users, all RNG outputs", "why_tests_cant": "All malformed structures.", "anchors": ["aeonflux/src/user.rs: User::show", "signal-credential/src/user.rs: SignalUser::show"]}
{"id": "C38", "title": "Transcripts bind every public value and separate the proof systems", "statement": "The transcripts hashed by two verifications are equal only if the proof system, the caller's domain-separation label, every public point and every recomputed commitment are equal; hence one challenge value serves two different statements only through a collision of the challenge function.", "quantifier": "all public values and proofs of all five proof systems", "why_tests_cant": "Injectivity over all inputs.", "anchors": ["aeonflux/src/proofs.rs", "aeonflux/src/issuer.rs", "aeonflux/src/user.rs", "signal-credential/src/issuer.rs"]}
{"id": "C39", "title": "Every proof system is complete", "statement": "For each of the five proof systems, a proof created for public values satisfying the stated relations verifies, for every witness, transcript and randomness.", "quantifier": "all witnesses, publics, transcripts, randomness, five proof systems", "why_tests_cant": "All witnesses, including zero scalars and identity points.", "anchors": ["aeonflux/src/proofs.rs: issuance_revealed, attributes_blinded, issuance_blinded, valid_credential, committed_values_equal"]}
{"id": "C40", "title": "Every proof system is specially sound", "statement": "For each of the five proof systems two accepting proofs with equal recomputed commitments and distinct challenges give a witness for the stated relations.", "quantifier": "all publics and pairs of proofs, five proof systems", "why_tests_cant": "Adversarial proofs.", "anchors": ["aeonflux/src/proofs.rs: issuance_revealed, attributes_blinded, issuance_blinded, valid_credential, committed_values_equal"]}
{"id": "C41", "title": "Every proof system is zero-knowledge against honest challenges", "statement": "For each of the five proof systems and every challenge, the map from prover randomness to responses is a bijection for every witness, and the commitments are determined by the public values, challenge and responses; so the simulator that picks the responses first produces exactly the prover's view.", "quantifier": "all publics, witnesses, challenges, randomness", "why_tests_cant": "Distributional statement.", "anchors": ["aeonflux/src/proofs.rs: issuance_revealed, attributes_blinded, issuance_blinded, valid_credential, committed_values_equal"]}
{"id": "C42", "title": "Blinded-attribute proofs are not malleable", "statement": "An accepted proof should not be transformable into a different accepted one. For attributes_blinded it is: the response for the unused secret `nonce` is ignored by verification, so every other value is accepted too. For the other four systems two accepted proofs of one statement with the same challenge are equal as residues, or give an explicit discrete-logarithm relation between the bases of the statement or a collision of the challenge function.", "quantifier": "all proofs, all replacement responses", "why_tests_cant": "Universal over replacement values.", "anchors": ["aeonflux/src/proofs.rs: attributes_blinded::Proof::verify"]}
{"id": "C43", "title": "Blinded issuance ties both encryptions to one value", "statement": "The blinded issuance proof should force the point T used for the key-blinding relation to be the one used in the encryption relation. It does not: the two occurrences are independent public inputs and a proof verifies for every choice of unequal values.", "quantifier": "all witnesses with t0 not equal to b*x1", "why_tests_cant": "Adversarial public inputs.", "anchors": ["aeonflux/src/proofs.rs: issuance_blinded"]}
{"id": "C44", "title": "Parameter search yields usable, independent generators", "statement": "hunt_and_peck returns, for every RNG, the point encoded by the first 32-byte block that is a valid encoding other than the basepoint's, together with the basepoint, so h is never g; it should also exclude the identity but does not: an RNG yielding 32 zero bytes gives h = identity, under which roster commitments do not depend on the number.", "quantifier": "all RNG outputs", "why_tests_cant": "First-match property over infinite streams.", "anchors": ["aeonflux/src/parameters.rs: SystemParameters::hunt_and_peck"]}
{"id": "C45", "title": "Issuer decoding checks that the key pair matches", "statement": "Issuer::from_bytes should reject a key pair whose public part is not the secret part times h. It does not: for every issuer, replacing the public key bytes with any valid points decodes successfully; with a mismatched key every issuance the issuer makes is rejected by users unless the challenge is zero or the challenge function collides.", "quantifier": "all issuers, all replacement public keys, all randomness", "why_tests_cant": "Adversarial or corrupted storage.", "anchors": ["aeonflux/src/issuer.rs: Issuer::from_bytes", "aeonflux/src/amacs.rs: Keypair::from_bytes"]}
{"id": "C46", "title": "Multi-attribute issuers issue usable credentials", "statement": "Issuer::from_bytes accepts keys for any number of attributes and issue accepts matching attribute lists, but the issuance proof only covers the first attribute: for two or more attributes users reject the issuance unless the other attributes contribute nothing to the MAC, the challenge is zero, or the challenge function collides.", "quantifier": "all issuers with at least two attribute keys, all attributes and randomness", "why_tests_cant": "Tests only use one attribute.", "anchors": ["aeonflux/src/issuer.rs: Issuer::issue, Issuer::from_bytes", "aeonflux/src/user.rs: User::obtain_finish"]}
{"id": "C47", "title": "Buffers returned by the C API are valid when the call returns", "statement": "A non-empty buffer returned by a C function should point to live memory holding the result. It does not: for every call of every entry point that returns a non-zero length, no byte of the buffer can be read when the call has returned, since the vector it points into was freed (the freed block did hold the result). A call changes none of its caller's memory and leaves nothing allocated.", "quantifier": "all C entry points, all memories and inputs for which the call succeeds", "why_tests_cant": "Memory validity after return is undefined behaviour that tests may pass by luck.", "anchors": ["ffi/src/c.rs", "ffi/src/macros.rs: slice_to_len_and_ptr"]}
{"id": "C48", "title": "C API failures return a NULL pointer and zero length", "statement": "The header documents length 0 and a NULL pointer on failure. Every failing call of the eleven functions which return bytes has length 0 and a pointer which is not NULL; a positive length is only returned with a non-empty result. roster_entry_commitment_open, documented to return NULL always, returns NULL with length 1 exactly when the entry opens, NULL with length 0 when it does not, and a non-NULL pointer when an argument does not decode.", "quantifier": "all C entry points, all inputs", "why_tests_cant": "All failing inputs.", "anchors": ["ffi/src/macros.rs: zero_len_and_ptr", "ffi/src/include/credential.h"]}
{"id": "C49", "title": "C API calls never panic", "statement": "No C entry point should unwind into the caller. A call unwinds exactly when: the phone number has 28 to 32 bytes (issue, obtain_finish, roster create and open, when the arguments examined earlier decode); a roster entry is shorter than 32 bytes, or not of 64 bytes with a decodable first half; an issuance is shorter than 32 bytes, or than 128 with a decodable commitment; a user is shorter than 32 bytes; or, in debug builds, a keypair given to issuer_new is shorter than 32 bytes. Five entry points never unwind.", "quantifier": "all inputs of all entry points", "why_tests_cant": "All byte strings as inputs.", "anchors": ["ffi/src/c.rs"]}
{"id": "C50", "title": "C API null pointers and zero lengths are refused, and calls read only their arguments", "statement": "A call with a null pointer or zero length among its arguments never has a result: if it returns, it returns the empty buffer and leaves memory and generator alone; if all arguments are missing it returns whatever the memory holds; a call whose arguments are each missing or readable is free of undefined behaviour. That a missing argument makes the call return is refuted: earlier arguments are decoded first and may unwind.", "quantifier": "all entry points, all combinations of arguments", "why_tests_cant": "All combinations.", "anchors": ["ffi/src/macros.rs: len_and_ptr_to_slice, uint8_to_array"]}
{"id": "C51", "title": "Values returned by the WASM API can be passed back to it", "statement": "A JsValue returned by one WASM function should be accepted by the next. It never is: values are written as JSON arrays of numbers, while the readers only accept byte strings, so every WASM call given a JsValue that the API returned returns 0 (or traps). Only strings are read, as their UTF-8 bytes; no string is read as the system parameters the API creates, and a string of fewer than 32 bytes passed as a user traps.", "quantifier": "all values of all serialisable types, all WASM entry points", "why_tests_cant": "Universal over values; the WASM crate has no round-trip test.", "anchors": ["wasm/src/js.rs", "aeonflux/src/macros.rs"]}
{"id": "C52", "title": "bincode round trip of every serialisable type", "statement": "Serialising a value with bincode and deserialising returns the value for every type whose from_bytes inverts to_bytes, also with arbitrary bytes following; what is accepted is exactly an eight-byte length, the encoding and a remainder; proper prefixes are rejected. Deserialisation can panic for the types whose from_bytes does (eight zero bytes suffice), and for no other type.", "quantifier": "all values, all trailing bytes", "why_tests_cant": "All values.", "anchors": ["aeonflux/src/macros.rs", "aeonflux/src/proofs.rs: serde derives"]}
{"id": "C53", "title": "The Swift wrapper reports failed verification", "statement": "SignalIssuer.verify in Swift should return nil when the presentation is rejected. It returns a non-nil VerifiedCredential for every presentation (448 zero bytes when rejected), because the failable initialisers return early without failing; nil is returned only for a seed of the wrong length. get_parameters returns 32 zero bytes for every issuer for one attribute because of a wrong length check. A user whose issuance was rejected is non-nil and empty, and shows a non-nil presentation of zeros. Opening a roster entry does report failure.", "quantifier": "all presentations and issuers", "why_tests_cant": "Universal over inputs.", "anchors": ["swift/Credential/Credential.swift: SignalIssuer.verify, IssuerParameters.init, VerifiedCredential.init", "swift/Credential/Credential.swift: User, RosterEntryCommitment"]}
{"id": "C54", "title": "Secret values are erased when dropped", "statement": "Dropping an aMAC secret key, an ElGamal secret key, a nonce collection, an ephemeral or a rerandomization overwrites every scalar it stores with zero and changes no other memory, for any number of stored scalars; so making such a value and dropping it leaves no copy of its scalars in any memory the call allocated, and rejected bytes leave none either. (The last part is false of SecretKey::from_bytes: the scalars decoded before a rejected one stay in freed memory.) Pushing to a vector that is full would leave the scalars it held in freed memory, whatever is dropped later; that is why the capacity is asked for beforehand.", "quantifier": "all values of the types", "why_tests_cant": "All sizes.", "anchors": ["aeonflux/src/amacs.rs:205-270 SecretKey, Drop, new, from_bytes", "aeonflux/src/amacs.rs:426-441 Rerandomization", "aeonflux/src/nonces.rs:42-67, 160-191", "aeonflux/src/elgamal.rs:146-205"]}
{"id": "C55", "title": "An issuer's answers do not depend on history", "statement": "In any interleaving of issue, verify and verify_roster_membership calls by any number of clients, each call's answer depends only on that call's input, the issuer key and the randomness it draws; in particular an accepted presentation is accepted again every time it is replayed.", "quantifier": "all histories of calls", "why_tests_cant": "Unbounded histories.", "anchors": ["signal-credential/src/issuer.rs: SignalIssuer"]}
{"id": "C56", "title": "Presentations cannot be altered", "statement": "If a presentation is accepted and another one with the same proof but a different nonce, MAC commitment or attribute commitment is accepted too, the challenge function has collided on two different transcripts.", "quantifier": "all pairs of presentations, all issuers, all challenge functions", "why_tests_cant": "All alterations.", "anchors": ["aeonflux/src/issuer.rs: Issuer::verify"]}
{"id": "C57", "title": "The group order is prime", "statement": "The scalar modulus 2^252 + 27742317777372353535851937790883648493 used for all canonicity checks is prime, so every non-zero scalar has an inverse, as the extraction and unlinkability properties require.", "quantifier": "all integers below the order", "why_tests_cant": "Primality of a 253-bit number is not settled by trial.", "anchors": ["aeonflux/src/amacs.rs (curve25519_dalek::scalar::Scalar)"]}
{"id": "C58", "title": "Characters that are not digits are rejected", "statement": "try_from_string should refuse strings that are not phone numbers, or at least keep them apart. It does neither: every character other than 0-9 is encoded as 15, so two strings that differ only in such characters give the same outcome, and the character is silently dropped when converting back.", "quantifier": "all pairs of strings of equal length that agree on their digits; existence of two different non-decimal strings with one encoding", "why_tests_cant": "A test fixes a few strings; the claim identifies the whole equivalence class that the encoder confuses.", "anchors": ["signal-credential/src/phone_number.rs:134-173", "signal-credential/src/phone_number.rs:203-241"]}
{"id": "C59", "title": "The string and byte encoders agree on a phone number", "statement": "try_from_string and try_from_bytes should give the same attribute for the same characters. They never do for a non-empty decimal string, so a number parsed with the string constructor never matches one that was issued or put on a roster (both go through try_from_bytes), and converting an issued ASCII number of 1 to 26 digits back to a string gives the empty string.", "quantifier": "all non-empty decimal strings of at most 27 digits (1..26 for the conversion back)", "why_tests_cant": "Tests use only one of the two encoders at a time; the disagreement holds for every input, including the reduced 27-byte encodings.", "anchors": ["signal-credential/src/phone_number.rs:134-200", "signal-credential/src/phone_number.rs:203-241", "signal-credential/src/issuer.rs:130-147"]}
{"id": "C60", "title": "C API results have the documented lengths", "statement": "Every successful call of the seven entry points whose results have a fixed length returns exactly that length. The header's claim that issuer_verify_roster_membership returns LENGTH_ROSTER_ENTRY_COMMITMENT (64) bytes is refuted: it never does, its results have 32.", "quantifier": "all calls in all memories", "why_tests_cant": "Tests check single lengths on one run.", "anchors": ["ffi/src/include/credential.h: issuer_verify_roster_membership", "ffi/src/c.rs"]}
{"id": "C61", "title": "C API reads exactly the length passed", "statement": "With 64-bit addresses an argument of length len is read as exactly len bytes. With 32-bit addresses this is refuted: for every entry length below 2^32 and every multiple of 2^32 added to it the call behaves as with the smaller length.", "quantifier": "all lengths, pointers and memories", "why_tests_cant": "Needs 4 GiB lengths on a 32-bit target.", "anchors": ["ffi/src/macros.rs: len_and_ptr_to_slice (len as size_t)"]}
{"id": "C62", "title": "Users made by user_obtain_finish can be used", "statement": "The bytes user_obtain_finish returns should decode in user_show. They do exactly when the issuer parameters were one key: for every accepted issuance and every key put after the issuer's the call still succeeds, and its result never decodes.", "quantifier": "all accepted issuances, all issuer parameters, all appended keys", "why_tests_cant": "Tests use one-key issuers only.", "anchors": ["ffi/src/c.rs: user_obtain_finish", "aeonflux/src/user.rs: User::from_bytes, obtain_finish"]}
{"id": "C63", "title": "Proof randomness is bound to statement and witness", "statement": "In each of the five proof systems every response is challenge times secret plus its own scalar drawn from one generator; the draws are consecutive and do not overlap, and the generator is seeded with the transcript including the system's name and every public point, with every secret, and with 32 fresh bytes. Two proofs give that generator equal inputs only if transcript, statement and witness are all equal, so a repeating random source does not make different proofs share blinding.", "quantifier": "all statements, witnesses, transcripts and random sources, five proof systems", "why_tests_cant": "Reused or unbound blinding still gives proofs that verify.", "anchors": ["aeonflux/src/proofs.rs: create of issuance_revealed, attributes_blinded, issuance_blinded, valid_credential, committed_values_equal"]}
{"id": "C64", "title": "The proof modules are the expansion of their declarations", "statement": "Each create and verify function of proofs.rs computes exactly what the create_nipk! declaration of the same name in proofs_macros.rs expands to, for all inputs and random sources, and the relation each system is specified to prove is the declared one. For every declaration whose terms use only its own secrets the expansion is complete and specially sound. Every declared secret should occur in some relation (false: the secret nonce of attributes_blinded occurs in none, so its response is free; it is the only one).", "quantifier": "all declarations, statements, witnesses, transcripts and random sources", "why_tests_cant": "A hand-kept expansion can differ from its declaration on inputs no test uses, and the scheme covers declarations not yet written.", "anchors": ["aeonflux/src/proofs_macros.rs:43-121", "aeonflux/src/proofs.rs:36-847", "zkp-expand/src/lib.rs"]}
{"id": "C65", "title": "The table of JavaScript objects of the WebAssembly API", "statement": "In every table reached by adding objects and dropping handles that hold one, a new object gets a handle nobody has, the handle reads that object until dropped, the constants are never freed, and the table grows only when full. A call that returns passes Rust exactly the caller's values and leaves the table as it was. A call that panics should release its arguments too (false: it leaves them in the table under handles nobody has, so repeated calls grow it without bound).", "quantifier": "all sequences of calls, all JavaScript arguments, all outcomes", "why_tests_cant": "The leak and the sharing of handles after a double drop show only over call sequences, not in results of single calls.", "anchors": ["wasm/src/credential.js:14-96, 118-375", "wasm/src/js.rs"]}
{"id": "C66", "title": "Roster presentations hide the number but not the entry", "statement": "Every presentation that passes both checks of the issuer is made by every valid credential with a non-identity nonce, whatever its number: exactly one opening of the roster entry to that number and one choice of random scalars give it, so it tells nothing about the number. A member should also be anonymous among the entries of the roster (false: the presentation carries the entry's commitment, the issuer returns it, and presentations with different entries always differ).", "quantifier": "all issuers with one attribute, all accepted presentations, all pairs of credentials, all random choices", "why_tests_cant": "Hiding is about the set of all random choices that explain an output, which no run shows.", "anchors": ["signal-credential/src/user.rs:99-140", "signal-credential/src/issuer.rs: verify_roster_membership"]}
{"id": "C67", "title": "Presentations and issuances are accepted for one issuer only", "statement": "A presentation accepted by two issuers implies equal parameters, equal attribute keys and equal x0, unless two named transcripts collide under the challenge function or the nonce is the identity. With the identity as nonce the promise is false: every such presentation one issuer accepts is accepted by each issuer that differs only in x0. An issuance accepted by two users implies equal parameters and equal issuer key up to a named collision. The roster check alone is bound to the parameters and to no key.", "quantifier": "all pairs of issuers and users, all presentations and issuances", "why_tests_cant": "Tests use one issuer; acceptance elsewhere is a statement about all other keys.", "anchors": ["aeonflux/src/issuer.rs: verify", "aeonflux/src/user.rs: obtain_finish", "signal-credential/src/issuer.rs: verify_roster_membership"]}
{"id": "C68", "title": "System parameters read from bytes are checked", "statement": "SystemParameters::from_bytes should refuse parameters that are no usable generators. False: every pair of encoded points is accepted, 64 zero bytes included. With h the identity every presentation determines its number by a test anybody can do; with g the identity a roster entry is a function of the number; whoever knows t with h = t g opens an entry to every number.", "quantifier": "all parameters, users, numbers, entries and random sources", "why_tests_cant": "Tests use honestly generated parameters; the consequences hold for all inputs.", "anchors": ["aeonflux/src/parameters.rs:52-81", "aeonflux/src/user.rs: show", "signal-credential/src/phone_number.rs: RosterEntryCommitment"]}
{"id": "C69", "title": "Tags cannot be forged by a generic adversary", "statement": "Let an adversary form linear combinations of the points it has, test them for being the identity, ask the issuer for credentials on attributes of its choice and have tags verified, each step depending on the answers so far. If h is not the identity then, of all keys for k attributes and all coins for N credentials, at most the fraction 3q/l lets it have a tag verified on attributes it did not ask for (same number of attributes, nonce not the identity), q being the most tests and verifications it makes. What it gets for asking is what issue sends. The bound is reached up to the factor 3 by guessing x0. If h is the identity and g is not, one credential and one verification always suffice.", "quantifier": "all adversaries, system parameters, numbers of attributes and credentials, keys and coins", "why_tests_cant": "The statement bounds a fraction of about 2^252 keys for every adversary; tests run a handful of keys against no adversary at all.", "anchors": ["aeonflux/src/amacs.rs:304-354", "aeonflux/src/issuer.rs:136-190", "aeonflux/src/parameters.rs:52-81"]}
{"id": "C70", "title": "Random bytes give nearly uniform keys, and the unforgeability bound survives", "statement": "Scalar::random draws 64 bytes. Each canonical scalar is the value of floor(2^512/l) or one more of the 2^512 strings of 64 bytes. SecretKey::new uses the consecutive 64-byte blocks of its generator, x0 first. Counting blocks of random bytes instead of scalars, the adversary of C69 wins on at most 3q/l times (2^512+l)^b strings of b blocks, where b = 1 + k + 2N.", "quantifier": "all scalars; all streams and numbers of attributes; all adversaries, parameters, numbers of attributes and credentials", "why_tests_cant": "The claim counts the preimages of every scalar among 2^512 strings and the winning strings of every adversary.", "anchors": ["aeonflux/src/amacs.rs:225-237", "aeonflux/src/amacs.rs:304-321", "aeonflux/src/issuer.rs:157-182"]}
{"id": "C71", "title": "When the crates' own tests pass", "statement": "The tests of issuance, presentation and serialisation pass for all random choices, if the constant used for h decodes (and, with debug assertions, is not the basepoint). The ElGamal and phone number tests always pass. The MAC tests pass exactly if the nonce is neither the identity nor the basepoint, x2 is not 0 and the two messages differ. The negative commitment test passes exactly if the two scalars differ. The test of the full protocol passes exactly if the commitments of the two users differ. The test of the parameter search passes exactly if some block of 32 bytes of the stream decodes to a point other than the basepoint, and otherwise goes on searching. Whenever another test does not pass it panics.", "quantifier": "all streams of the generators, all constants", "why_tests_cant": "A test run covers one choice of the random bytes; whether a test can fail by chance, and when, is a statement about all of them.", "anchors": ["aeonflux/src/amacs.rs:450-488", "aeonflux/src/issuer.rs:250-282", "aeonflux/src/credential.rs:394-450", "aeonflux/src/elgamal.rs:243-251", "aeonflux/src/parameters.rs:187-217", "aeonflux/src/pedersen.rs:128-151", "signal-credential/src/credential.rs:153-180", "signal-credential/src/user.rs:271-288", "signal-credential/src/phone_number.rs:388-404", "signal-credential/tests/full-protocol.rs:24-93"]}
{"id": "C72", "title": "The tests of the C interface test it", "statement": "Refuted. Whatever the constants of the test module, none of the tests of system_parameters_create, issuer_create, issuer_new, issuer_get_issuer_parameters, issuer_issue, issuer_verify and user_show passes with defined behaviour: each reads a buffer which the function under test, or the one preparing its argument, has already freed. They do read it as soon as that function succeeds. Only the test of user_obtain_finish, which looks at the length alone, passes, exactly if its constants decode, the issuer parameters are one key, the number has at most 27 bytes and the issuance is accepted.", "quantifier": "all constants, memories, generator streams and search bounds", "why_tests_cant": "The tests are the object: they appear to pass because freed memory usually still holds its old contents.", "anchors": ["ffi/src/c.rs:379-528", "ffi/src/macros.rs:10-20"]}
{"id": "C73", "title": "The buffers of the build test are valid", "statement": "allocate_buffer_for_bytes returns null exactly if the size plus one overflows or malloc fails; otherwise a live block with the bytes and a terminating zero, all other memory unchanged. The Swift class returns the 32 bytes computed, and traps exactly if malloc fails. Refuted: the block is freed; each call leaves one more live. The bytes encode (1 + blinding * number) * k * g, and the test of the crate passes exactly if that is not the identity.", "quantifier": "all byte strings, memories, answers of malloc and generator streams", "why_tests_cant": "The only test checks that one result is not the identity; no test covers an overflow, a failing malloc, or memory left behind.", "anchors": ["build-test/alloc/src/lib.rs:22-47", "build-test/maths/src/lib.rs:20-44", "build-test/ios/src/lib.rs:18-28", "build-test/ios/xcode/BuildTest.swift:10-19"]}
{"id": "C74", "title": "The proofs of issuance do not help to forge tags", "statement": "In the game of C69 let the adversary, for a key with one attribute, also see the challenge and the responses of the proof in each issuance, and let it evaluate the hash, which is a random function of the nine points hashed. If h is not the identity, then of all keys, all coins for N credentials and all values of the hash at M places, at most the fraction (3 (q + 9 M h) + N M) / l lets an adversary forge a tag which makes q tests and verifications and hashes h times. What it sees is what the issuer sends. Two proofs made with the same scalars, under different challenges, give the key away.", "quantifier": "all generic adversaries, all numbers of credentials, tests, verifications and hashes", "why_tests_cant": "A bound on all adversaries and over all keys and random choices.", "anchors": ["aeonflux/src/amacs.rs:304-354", "aeonflux/src/issuer.rs:136-190", "aeonflux/src/proofs.rs:36-178"]}
{"id": "C75", "title": "Byte arrays and text reach WebAssembly intact and are freed", "statement": "A byte array passed to an exported function arrives in a block of its own, whatever view of the memory is cached and whether or not the memory grows; later arrays and the text of other arguments do not disturb it. A call with Uint8Arrays is the call with their bytes. When the call returns or panics its arrays are freed, with the address and size they were allocated with, also when an array is missing. The text of a value is given to Rust where it asked for it. A phone number denotes the same attribute however it is passed.", "quantifier": "all memories, all cached views, all allocators which hand out blocks that do not overlap, all calls and arrays", "why_tests_cant": "Whether the memory grows between two arrays depends on the allocator and on the history of the page.", "anchors": ["wasm/src/credential.js:6-18", "wasm/src/credential.js:74-333", "wasm/src/credential.js:343-375"]}
{"id": "C76", "title": "A presentation shows the attributes of the credential", "statement": "An accepted presentation, together with a roster entry, should be for the attribute of the credential. verify adds the revealed and the hidden attribute of the same index: only their sum matters. So a user with a credential for any number passes verify and verify_roster_membership under the entry of any other number whose opening it knows, by naming the difference as a revealed attribute; the nonce need not be the identity. Presentations read from bytes have no revealed attributes, so the attack needs the Rust interface.", "quantifier": "all issuers with one attribute, all credentials, numbers, roster entries and random choices; all bytes", "why_tests_cant": "No test makes a presentation with a revealed attribute.", "anchors": ["aeonflux/src/issuer.rs:197-229", "aeonflux/src/credential.rs:250-321", "signal-credential/src/issuer.rs:149-181"]}
{"id": "C77", "title": "No presentation without a credential for the number", "statement": "In a game like that of C69 let the adversary ask for credentials, evaluate the hash, which is a random function of the points hashed, and have presentations checked by verify and verify_roster_membership. It wins if a presentation with a nonce other than the identity, revealing no attribute, is accepted though it never asked for a credential, or is accepted together with an entry for a number it never asked for, which it may open as it likes. Of all logarithms t of h other than 0, all keys, all coins for N credentials and all values of the hash at M places, at most the fraction (2 q + 3 h^2) / l lets it win, where it makes q tests and h hashes, two for each presentation checked. The checks are those of the code. Somebody who knows t passes for every number with a credential for any.", "quantifier": "all generic adversaries, all numbers of credentials, tests, hashes and presentations", "why_tests_cant": "A bound on all adversaries and over all keys, parameters and random choices.", "anchors": ["aeonflux/src/issuer.rs:197-229", "aeonflux/src/proofs.rs:620-847", "signal-credential/src/issuer.rs:149-181", "aeonflux/src/parameters.rs:102-172"]}
{"id": "C78", "title": "Which error a decoder returns", "statement": "For every format a table, in the order in which an input is read, gives what may be wrong with it (its length, 32 bytes that encode no point, 32 bytes that encode no reduced scalar, bytes that are no proof, an optional field that is not all zero and wrong) and what happens then: an error or a panic. Every from_bytes returns a value exactly if nothing of its table is wrong, and otherwise ends as the first entry that is wrong says, with the error after the conversions between the error types. In particular a string that is no point is reported as PointDecompressionError only by some of them: as part of a credential it gives NoIssuerParameters, as a commitment MissingData.", "quantifier": "all byte strings, all formats", "why_tests_cant": "All byte strings; the tests decode only what the code has encoded.", "anchors": ["aeonflux/src/amacs.rs:126-367", "aeonflux/src/credential.rs:79-366", "aeonflux/src/errors.rs:57-134", "aeonflux/src/issuer.rs:52-61", "aeonflux/src/user.rs:55-85", "signal-credential/src/credential.rs:65-131", "signal-credential/src/errors.rs:49-59", "signal-credential/src/phone_number.rs:325-335"]}
{"id": "C79", "title": "What the error messages say", "statement": "Within each of the three error types, different errors have different texts, including the lengths in them. What the texts say is compared with when they are returned. \"Message must be n bytes in length\" never gives a length that would be accepted: n is the length of the refused input when a key is decoded, and the number of attributes, not of bytes, when a message is authenticated. \"must be a multiple of 32\" is true of requests and presentations, but a credential of a length other than 96 which is a multiple of 32 gets it too. \"more than 32 bytes\" is true of the conversions of numbers, but from_bytes says it of shorter input too. \"high-bit set\" is said of every scalar not below l. An entry that encodes no point is reported as a failed proof of roster membership. Of the protocol, \"Could not create a MAC\" is said only of a request with another number of attributes than the key, \"Could not verify a MAC\" of every presentation refused with an error, and \"missing\" data only of a user without a credential. The conversion of the MAC errors into credential errors forgets nothing but the length, but changes the text of an undecodable point into one about missing issuer parameters.", "quantifier": "all errors, all inputs", "why_tests_cant": "All inputs; no test looks at a text.", "anchors": ["aeonflux/src/errors.rs:38-56", "aeonflux/src/errors.rs:80-134", "signal-credential/src/errors.rs:30-40"]}
{"id": "C80", "title": "Operators and conversions", "statement": "Each of the products of a nonce or a scalar with a point, basepoint table or commitment, in either order and by value or reference, is the multiple, and the product with the negated nonce is its inverse. Multiples and differences of commitments open to the multiples and differences of value and nonce. A tag times a rerandomisation, in either order, satisfies the same MAC equation. Indexing nonces, messages and phone numbers gives the item exactly if the index is in range, for a phone number byte i of its encoding for i below 32, and panics otherwise. Nonces::new draws as many nonces as asked for. The conversions between scalars, nonces, messages, keys and vectors lose nothing; encryption with a keypair and the conversion of an encrypted number to attributes decrypt to what was encrypted. The length of a key is the number of blocks in its encoding. The message made from a scalar, a number or a string has one part, so it can be tagged with keys for one attribute only.", "quantifier": "all scalars, points, indices, messages, tags and keys", "why_tests_cant": "All values; the tests call few of the operators.", "anchors": ["aeonflux/src/nonces.rs:36-195", "aeonflux/src/pedersen.rs:38-64", "aeonflux/src/amacs.rs:97-115", "aeonflux/src/amacs.rs:402-422", "aeonflux/src/elgamal.rs:133-137", "aeonflux/src/elgamal.rs:184-233", "signal-credential/src/phone_number.rs:58-65", "signal-credential/src/phone_number.rs:265-273", "aeonflux/src/amacs.rs:62-94", "aeonflux/src/amacs.rs:197-199", "aeonflux/src/amacs.rs:284-286", "aeonflux/src/amacs.rs:378-380"]}
{"id": "C81", "title": "Overhearing everything does not help to impersonate", "statement": "Extend the game of C77: the adversary also sees the proof of issuance that comes with each of its credentials, and it overhears honest users, naming the number and the opening of the roster entry and being given what SignalUser::show makes of them, both proofs included. It wins if a presentation with a nonce other than the identity, revealing no attribute, is accepted and it never asked for a credential and the presentation is not one it overheard, or the presentation is accepted together with an entry for a number it never asked for and the whole is not one it overheard. Of all logarithms t of h other than 0, all keys, all coins for N credentials and K overheard presentations and all values of the hash at M places, at most the fraction (2 q + 3 (h + N + 2 K)^2) / l lets it win, where it makes q tests and h hashes. So neither can a presentation be changed, for instance its roster entry, nor does one give away the credential. What is overheard is what show sends. Copies are accepted, and whoever learns the scalar that hides the tag has the credential.", "quantifier": "all generic adversaries, all numbers of credentials, presentations, tests and hashes", "why_tests_cant": "A bound on all adversaries and over all keys, parameters and random choices.", "anchors": ["signal-credential/src/user.rs:99-140", "aeonflux/src/user.rs:176-251", "aeonflux/src/issuer.rs:128-229", "aeonflux/src/proofs.rs:81-160", "aeonflux/src/proofs.rs:620-847", "signal-credential/src/issuer.rs:149-181"]}
{"id": "C82", "title": "Who watches a group learns nothing of who is in it", "statement": "Somebody who holds the issuer's key and all credentials lets users join a group, naming two for each roster entry, and lets the owners of entries present, as often and in whatever order, each step depending on all seen. Whether always the first or always the second of the two joins, all that can be seen is equally likely: for every choice of the random scalars in one case there is exactly one in the other with which the same entries and the same presentations, proofs included, are seen. So presentations are linked by their entry and by nothing else. The users' credentials must be valid under one key and their nonces must not be the identity. No user checks the latter (refuted: an issuer can mark a user with a credential whose nonce is the identity; it is stored, its presentations are accepted, and all have the identity as nonce, which others have with probability 1/l).", "quantifier": "all adaptive adversaries, all numbers of users, entries and presentations, all keys and parameters with non-identity generators", "why_tests_cant": "A statement about the distribution of all that an adversary can see, for all adversaries.", "anchors": ["signal-credential/src/user.rs:99-140", "aeonflux/src/user.rs:127-251", "signal-credential/src/phone_number.rs:351-366", "aeonflux/src/amacs.rs:323-340"]}
{"id": "C83", "title": "Whoever convinces a verifier can be made to tell the witness", "statement": "In the random-oracle model a prover that makes presentations, roster memberships or issuances which are taken, asking the hash function at most q times, can be run twice to give away what the proof is about: if it succeeds for a fraction a of the values of the hash function, then running it again with other values from the deciding question on gives, for at least a^2/q - a/l of all pairs, two outputs with the same question and different challenges, and from those the extractor computes an opening of the blinded attribute together with a tag valid under the issuer's key for it (presentation), an opening of the roster entry and of the blinded attribute with one number (membership), a key matching the tag and the published key points (issuance). What is taken with the actual hash value is exactly what the code accepts.", "quantifier": "all provers (any function of the answers), all numbers q of questions, all sets of hash values for which the prover succeeds, all parameters and consistent keys", "why_tests_cant": "A statement about all possible provers and all hash functions.", "anchors": ["aeonflux/src/proofs.rs:81-160", "aeonflux/src/proofs.rs:620-847", "aeonflux/src/issuer.rs:197-229", "aeonflux/src/user.rs:127-175", "signal-credential/src/issuer.rs:149-181"]}
{"id": "C84", "title": "Whoever presents as the owner of a roster entry has a credential for the number in it", "statement": "In the random-oracle model, take any prover that makes presentations for which both the credential and the membership of a roster entry are taken, for a set W of the values of the hash function, asking at most q questions. For at least half of W there are many values (at least |W|/4q - l^(q-1) each) for running it again from the question of the presentation, and many for running it again from that of the membership; from any three such runs one computes a tag valid under the issuer's key for a number m and an opening of the entry to a number m', and either m = m' or the same values give a valid tag for every number at all, so that the prover has broken the MAC (C69, C77, C81). If the nonce is the identity, which the code does not refuse (C19), the tag is the trivial one, valid for every number, and nothing is shown. Both proofs are taken with the code's own challenges exactly when the code accepts both.", "quantifier": "all provers, all q, all sets of hash values, all parameters and consistent keys for one attribute", "why_tests_cant": "A statement about all possible provers and all hash functions.", "anchors": ["signal-credential/src/issuer.rs:149-181", "aeonflux/src/issuer.rs:197-229", "aeonflux/src/proofs.rs:620-847"]}
{"id": "C85", "title": "The bounds on forging and impersonation hold for random bytes", "statement": "Everything random is made from bytes: the second generator h from 32 bytes (every point but g from exactly one string), and every scalar of the key, the credentials, the presentations and the proofs, and every challenge, from 64 bytes reduced modulo l. Counting strings of bytes, the adversary of C74 wins on at most (3 (q + 9 M h) + N M) / l times (2^512+l)^b strings of b = 2 + 6N + M blocks, and the adversary of C81 on at most (1 + 2 q + 3 (h + N + 2K)^2) / l times l (2^512+l)^b pairs of a string for h and b = 2 + 6N + 9K + M blocks. The 1 is for h being the identity, which hunt_and_peck does not exclude: then an adversary with one credential for any number passes for every number, whatever the other bytes are unless the credential's nonce is the identity.", "quantifier": "all generic adversaries, all numbers of credentials, presentations, tests, hashes and values of the hash", "why_tests_cant": "A bound on the number of random strings out of more than 2^4000.", "anchors": ["aeonflux/src/parameters.rs:102-124", "aeonflux/src/amacs.rs:225-237", "aeonflux/src/issuer.rs:157-194", "aeonflux/src/user.rs:176-251", "aeonflux/src/proofs.rs:36-178"]}
{"id": "C86", "title": "Nobody passes for the owner of an entry without a credential for its number", "statement": "C83 and C84 with everything random: the issuer's key, its parameters, the entry and the prover depend on coins in any way, so the prover may also hold whatever credentials and presentations the coins include. A roster of any length has entries made for numbers by anybody. If, for a fraction a of all coins and all values of the hash function, somebody presents as the owner of one of its entries, of their choice, made for the number n (nonce not the identity, at most q questions), then a quarter of those coins and values have at least a/8q - 1/l of all values for running it again from the one question, and as many from the other; from any three such runs the same formula computes a tag with that nonce valid for n under the issuer's key, or else the logarithm of h to the base g. The fraction of pairs of runs for a single question (C83) is again at least a^2/q - a/l.", "quantifier": "all provers, all ways to depend on coins, all numbers and openings of entries, all q, all sets of coins and hash values", "why_tests_cant": "A statement about all possible provers and all hash functions, averaged over keys.", "anchors": ["signal-credential/src/issuer.rs:149-181", "signal-credential/src/phone_number.rs:350-367", "aeonflux/src/issuer.rs:197-229", "aeonflux/src/proofs.rs:620-847"]}
{"id": "C87", "title": "A call from C, JavaScript or Swift computes what the Rust function computes", "statement": "Each call of the C, JavaScript and Swift interfaces, except the opening of a commitment (C48), is the call of a Rust function on decoded arguments. From C, a call returns the bytes s with s in memory, and leaves the operating system's randomness os', exactly if its pointers give byte strings on which the Rust functions compute an object with encoding s and leave os'. Any other call that returns gives the empty buffer and changes neither memory nor randomness. The same holds from JavaScript for arguments that are strings and seeds of 32 bytes, with an array of numbers as result, and 0 otherwise. From Swift, a function gives what is found, after the C memory has been freed, at the place of the same bytes, or no bytes if an argument is empty or the Rust functions compute nothing. The lengths in credential.h are those of the results exactly when the issuer's key has one attribute.", "quantifier": "all memories, arguments, seeds, randomness, and groups", "why_tests_cant": "The interfaces have no tests in the repository; a test would cover single arguments and not every way to fail.", "anchors": ["ffi/src/c.rs:71-284", "ffi/src/macros.rs:10-139", "wasm/src/js.rs:95-347", "swift/Credential/Credential.swift:14-218", "swift/Credential/credential.h:10-20"]}
{"id": "C88", "title": "ElGamal encryption hides the message as well as the Diffie-Hellman secret is hidden", "statement": "An eavesdropper has the public key, names two messages as often as it likes, is given each time the encryption of the first, or each time of the second, and says yes or no. It can be put to use, as it is, on three points aB, bB and C to tell whether C is abB: counting over all keys, nonces and coins, (l-1) l^(n+1) times the difference between its two numbers of yes is exactly the difference of what it says about abB and about a random point, for the first and for the second messages; on points that are not the secret it says yes equally often for both. The same goes for encryptions of phone numbers. A generic eavesdropper with q comparisons has the difference at most 2q/l of all keys and nonces, and 1/l is reached with one comparison. Encryptions with the same nonce show the difference of the messages; a key or nonce of zero shows the message, and nothing else puts it in the clear; an encryption can be altered so that it decrypts to the message plus B, so nothing is hidden from who may have other encryptions decrypted.", "quantifier": "all eavesdroppers, numbers of encryptions, messages, keys and nonces", "why_tests_cant": "A statement about all possible eavesdroppers and counts over all keys and nonces.", "anchors": ["aeonflux/src/elgamal.rs:74-78", "aeonflux/src/elgamal.rs:122-130", "aeonflux/src/elgamal.rs:139-143", "aeonflux/src/elgamal.rs:177-181", "signal-credential/src/phone_number.rs:250-259"]}
{"id": "C89", "title": "In every history of honest participants everybody gets the answer they should", "statement": "Any number of issuers with the same parameters (h not the identity), users, credentials on their way, roster entries and presentations; in any order issuers are opened, users register, credentials are issued and delivered to whomever, numbers are entered and opened, credentials presented with any entry, presentations checked by any issuer, and anything is written to bytes and read again. The answers of the functions - success, which error, crash - are those of a machine without keys, proofs or randomness that only keeps who issued what for which number: a delivery succeeds if user and credential have the same issuer, a presentation is accepted by exactly the issuer of the credential, and the member is recognised if the number of the credential is that of the entry; a number of 28 to 32 bytes crashes and a longer one is an error; reloading changes nothing. The only exception is at an event by which somebody is to be refused: the two issuers have one public key, two named transcripts have one challenge, or a challenge is zero. So histories in which nobody is refused have no exception, randomness and keys of users never show in the answers, and who is recognised as a member was issued a credential by the very issuer that checks, for a number entered on the roster.", "quantifier": "all histories of any length, all randomness, all parameters and numbers", "why_tests_cant": "Tests run a few fixed orders of calls; this is about all interleavings of any number of participants.", "anchors": ["signal-credential/src/issuer.rs:43-73", "signal-credential/src/issuer.rs:130-181", "signal-credential/src/user.rs:68-140", "signal-credential/src/phone_number.rs:351-380"]}
{"id": "C90", "title": "The same histories with the C functions and participants that keep only bytes", "statement": "A program keeps nothing but byte strings - issuers, issuances, users, roster entries, presentations, verified presentations - and passes them, in any order and to any function, back to the C interface (arguments in memory, seeds of 32 bytes, phone numbers not empty). Each call gives bytes exactly where a register says so that only knows who issued what for which number: a user is obtained if the credential is of that issuer and the number fits in 27 bytes, a presentation is verified by exactly the issuer of the credential, and roster membership gives bytes if the numbers agree, namely those which removing the opening from that very entry gives. All else gives nothing, and numbers of 28 bytes and more never anything. The only exceptions are at refusals, at the named collisions of C89; histories without refusals have none. The same holds of every interface that decodes its arguments, applies the Rust function and encodes the result; the C functions are one, from the making of the parameters on, if h is not the identity.", "quantifier": "all histories of any length, all seeds, all randomness of the operating system, all phone numbers of 1 to 2^32-1 bytes", "why_tests_cant": "Tests call each C function once with made-up arguments; that everything which one function writes is read back by the next as what it was, in all orders, cannot be sampled.", "anchors": ["ffi/src/c.rs:71-260", "signal-credential/src/issuer.rs:43-73", "signal-credential/src/issuer.rs:130-181", "signal-credential/src/user.rs:68-140"]}
{"id": "C91", "title": "What is hidden when every scalar is made from 64 random bytes", "statement": "The code makes each random scalar from 64 random bytes, reduced modulo the group order l; the counts of C82 and C88 are over scalars. For anything said about n scalars, the number of n-tuples of 64-byte strings for which it is so lies between s^n and (s+1)^n times the number of n-tuples of scalars, where s = 2^512 / l is more than 2^256 and s l differs from 2^512 by less than l. The factors cannot be dropped: the scalars do not all come from equally many strings (refuted). So: whatever somebody concludes who watches a group as in C82, it is concluded in the one world for at most ((s+1)/s)^n times as many strings as in the other, n being 1 for each entry and 9 for each presentation. An eavesdropper of C88 says yes for as many strings as scalars, up to the same factors, and for a generic one with q comparisons the two numbers differ by at most 2q/l plus (n+1) l/2^512 (1 + l/2^512)^n of all 2^(512 (n+1)) strings. A key pair and the nonce made next are those of the first and the second 64 bytes of the stream.", "quantifier": "all adversaries, all numbers of entries, presentations and encryptions, all properties of scalars, all streams", "why_tests_cant": "Counts over all 2^(512 n) random strings, for all adversaries.", "anchors": ["signal-credential/src/user.rs:99-140", "signal-credential/src/phone_number.rs:351-366", "aeonflux/src/elgamal.rs:122-130", "aeonflux/src/elgamal.rs:170-175", "aeonflux/src/elgamal.rs:220-228"]}
{"id": "C92", "title": "What running time and memory access show of secrets", "statement": "An observer of a call sees which way each branch goes, how often loops turn, which array elements are read, the scalars given to vartime_multiscalar_mul, where a comparison of byte strings stops and which arm of a match on a byte is taken. Making keys and creating any of the five proofs shows nothing. Computing a MAC, issuing, showing a credential (with or without the roster proof), reading a number given as digits and putting it on the roster show the numbers of key components, attributes and digits, and nothing of keys, numbers, credentials, nonces, openings or randomness. Checking a MAC, verifying a presentation, verifying roster membership, accepting an issuance and opening a roster entry show besides only whether they succeed. Reading issuer keys, key pairs and credentials shows only whether it succeeds. It is not true of the rest: the number of digits is shown; a number given as text is shown in full, and so is one turned into text; reading a user's state shows how many zero bytes the user's secret key and credential start with, that is which powers of 256 divide the key.", "quantifier": "all keys, numbers, credentials, presentations, byte strings and random streams", "why_tests_cant": "Compares every pair of runs on different secrets; tests do not measure what an observer sees.", "anchors": ["aeonflux/src/amacs.rs:304-340", "aeonflux/src/proofs.rs:87-175", "aeonflux/src/issuer.rs:136-229", "aeonflux/src/user.rs:55-85", "aeonflux/src/user.rs:176-251", "signal-credential/src/phone_number.rs:134-241", "signal-credential/src/user.rs:99-140"]}
{"id": "C93", "title": "What the comments on the functions say", "statement": "Claims in the comments that no other property takes up are compared with the code. True: an issuer with a key for one attribute returns an error only for a number of more than 32 bytes, and then MissingData; parameters made from 32 bytes panic if these are no point, and with debug assertions also if they are the basepoint. False: NoIssuerParameters and NoIssuerKey are not returned for keys of the wrong length but for empty ones; a longer secret key gives MacCreation, which is not documented, and a longer public key is used. Numbers of 28 to 32 bytes panic, and VerificationFailure is never returned. The two documented forms of a phone number are different numbers: if the server issues for one and the user takes the other, every step succeeds until roster membership is refused, unless the challenge is zero or collides. Numbers are padded with 0x0f, not 0x15. The group order has 253 bits, not 255. JavaScript gets 0, not false. With the length the header says must be used for an issuer, that returned by issuer_create, each of the four issuer functions of the C interface returns the empty buffer.", "quantifier": "all issuers, numbers, byte strings, random streams and memories", "why_tests_cant": "All inputs; the tests use one form of a number, one-attribute keys and the right lengths.", "anchors": ["signal-credential/src/issuer.rs:98-147", "signal-credential/src/phone_number.rs:46-56", "aeonflux/src/parameters.rs:31-42", "aeonflux/src/parameters.rs:158-172", "wasm/src/js.rs:206-207", "wasm/src/js.rs:263-279", "ffi/src/include/credential.h:111-113"]}
{"id": "C94", "title": "No input makes a call run out of proportion to its length", "statement": "Counting branches, array accesses, and the elements of everything copied, compared or multiplied (the events of C92): reading tags, parameters, user keys, credentials, numbers and users takes a bounded number of steps whatever the input, and one to seven if its length is wrong. Reading keys takes at most three steps for every 32 bytes and a constant; there is no other bound, since an issuer with any number of components is read. Encoding a number takes four steps a byte, five from text, but one if there are more than 32 bytes; turning a number into text takes at most 476. Each proof takes the same number of steps to make or check whatever it is about. Issuing takes at most three steps an attribute and a constant, showing a bounded number, finishing an issuance one an attribute. Verifying a presentation is bounded both by its attributes and by the issuer's key alone, so a presentation with many attributes costs the issuer no more than its key has components.", "quantifier": "all byte strings, keys, users, presentations, issuances, entries and random streams", "why_tests_cant": "All inputs of all lengths, adversarial ones included.", "anchors": ["aeonflux/src/amacs.rs:126-394", "aeonflux/src/credential.rs:79-102", "aeonflux/src/issuer.rs:52-229", "aeonflux/src/user.rs:55-251", "aeonflux/src/proofs.rs:87-845", "signal-credential/src/phone_number.rs:68-241", "signal-credential/src/issuer.rs:130-181", "signal-credential/src/user.rs:46-140"]}
{"id": "C95", "title": "Strangers on the wire disturb nobody, except that they can put another attribute into a credential they carry", "statement": "To the histories of C89 messages are added that come from nobody: any bytes, at any time, sent to a user as a credential or as a roster entry, or to an issuer as a presentation to check. As long as no user takes a credential that no issuer made, the answers to the service's own events are those of the machine of C89 run on these events alone, a copy of a credential on its way, with anything after it, counting as a delivery; the exceptions are those of C89. Whatever is sent as a credential, nothing changes but the credential stored by the user it is sent to, not even that if it is not taken, and delivering a credential of the user's issuer puts things back as if nothing had been sent; the other messages change nothing. That users take only what an issuer made is refuted: after any history without such an exception, whoever carries a credential can replace its attribute by any other, and a user of the same issuer takes it in place of what they had, presents it without an error, and is refused by their issuer - unless the issuer's key x1 is zero, or the nonce of the presentation is the identity, its challenge zero, or two named transcripts have one challenge - where they would have been accepted before.", "quantifier": "all histories and messages of any length and order, all randomness, all parameters, credentials and attributes", "why_tests_cant": "Tests have no strangers and a few fixed orders of calls; this is about all interleavings with all byte strings.", "anchors": ["signal-credential/src/user.rs:87-140", "signal-credential/src/issuer.rs:130-181", "signal-credential/src/credential.rs:65-131", "aeonflux/src/user.rs:140-172", "aeonflux/src/credential.rs:211-220"]}
{"id": "C96", "title": "What the derived comparisons, texts and defaults do", "statement": "For every type that has it, derived == holds exactly of equal values, and for values that are read back from their bytes exactly if the bytes are equal. It is not equality of bytes in general: a user with the all-zero key pair or credential differs from one with none and has the same bytes. Nor do different phone numbers mean different things: up to seven numbers read from bytes differ and have the same commitments. That {:?} keeps secrets is refuted for every type that has it: the text of a key, key pair, nonce, rerandomisation, message, phone number, request, credential, issuance, presentation or user contains the text of each of its scalars, and if the texts of scalars and points can be read back then the text tells the value; that of curve25519-dalek's scalars can. That default() gives usable values is refuted: the default MAC key makes no tag except for the empty message and takes, for every message, exactly the tags whose mac is the identity; the default rerandomisation turns every tag into one that every key takes for every message; encryption and commitments with the default key or nonce show what they should hide; show with the default nonces panics.", "quantifier": "all values of the types, all texts of scalars and points, all messages, tags and random streams", "why_tests_cant": "All values; the tests compare a few values with themselves and print none.", "anchors": ["aeonflux/src/amacs.rs:63-65", "aeonflux/src/amacs.rs:118-123", "aeonflux/src/amacs.rs:158-163", "aeonflux/src/amacs.rs:205-210", "aeonflux/src/amacs.rs:344-349", "aeonflux/src/amacs.rs:399-400", "aeonflux/src/credential.rs:67-76", "aeonflux/src/credential.rs:156-160", "aeonflux/src/credential.rs:202-264", "aeonflux/src/elgamal.rs:43-84", "aeonflux/src/nonces.rs:32-33", "aeonflux/src/nonces.rs:157-158", "aeonflux/src/user.rs:46-52", "signal-credential/src/credential.rs:51-62", "signal-credential/src/phone_number.rs:54-56", "signal-credential/src/user.rs:39-43"]}
{"id": "C97", "title": "What a presentation proves, and to whom", "statement": "That a presentation is good for one use is refuted: in a service among strangers, whatever an issuer answered to bytes somebody sent, it answers to whoever sends them at any later time, after any events; and for everything shown, sending its bytes later gets the answer that checking it got. To whoever lacks the issuer's secret key a presentation proves nothing: whatever credential somebody with one attribute presents, issued or made up, there is exactly one key with the issuer's public key and parameters under which the credential is valid, and the issuer with that key takes every presentation of it, with any roster entry made for its attribute. The presentations that some issuer with given public parameters takes are exactly those that anybody can make who has these and a made-up tag, for any number. To the issuer it does not prove who made it: a presentation taken for an entry made for a number can be made, in exactly one way, from any other credential the issuer writes for that number and the opening of the entry.", "quantifier": "all histories before and after, all bytes, issuers, parameters, credentials, numbers, entries, presentations and random streams", "why_tests_cant": "All histories, and the existence of a key and of randomness for every presentation.", "anchors": ["signal-credential/src/issuer.rs:149-181", "signal-credential/src/user.rs:99-140", "aeonflux/src/issuer.rs:197-229", "aeonflux/src/user.rs:176-251", "aeonflux/src/amacs.rs:344-395"]}
{"id": "C98", "title": "What one seed for two calls gives away", "statement": "The C, JavaScript and Swift functions take seeds, and nothing says that a seed may be used only once or only in one function. That calls with one seed do not give each other away is refuted, besides C08 and C24. (1) The opening of a roster entry made with the seed of the issuer's key is x0, bytes 32 to 63 of both results; and x0 with the public key makes a credential for every number, accepted with every entry for it. (2) A presentation made with that seed shows its number times its nonce to the issuer, who can try numbers. (3) Of two entries made with one seed, whoever has the opening of one can try the number of the other, and their difference is that of the numbers times h. (4) From two presentations of two credentials for one number with one seed anybody can try the number. (5) A presentation made with the seed of its roster entry fits no other number, except where log h/g = log P/h. (6) Issuers made with one seed accept each other's credentials as valid.", "quantifier": "all streams and seeds, parameters, numbers, credentials, entries and guesses", "why_tests_cant": "All seeds and numbers; the tests of the C interface use one seed for every call and look at lengths.", "anchors": ["ffi/src/c.rs:71-97", "ffi/src/c.rs:209-250", "ffi/src/c.rs:296-299", "ffi/src/c.rs:510-525", "ffi/src/macros.rs:55-61", "wasm/src/js.rs:74-80", "aeonflux/src/amacs.rs:205-240", "aeonflux/src/nonces.rs:177-191", "signal-credential/src/phone_number.rs:351-366", "signal-credential/src/user.rs:99-140"]}
{"id": "C99", "title": "The Swift wrapper cannot be used for the steps of FFI.md", "statement": "FFI.md describes one sequence of steps for all interfaces. That it can be followed in Swift is refuted. An IssuerParameters object, made from any bytes or got from any issuer, holds 32 zero bytes or 96 bytes, so never the key of an issuer for one attribute unless that is the identity. A User made with such an object shows 448 zero bytes, with every entry and seed and whatever is found in freed memory, unless the object holds zeros and the issuance passes as one under the key zero; if the user would take the issuance with the issuer's key and that is not the identity, two named transcripts then have one challenge. No issuer accepts 448 zero bytes, and verify returns for them what it returns for all that is refused. With an issuer whose public key is the identity all steps succeed if freed memory keeps its contents; what that issuer issues for one number is valid for every number.", "quantifier": "all byte strings, numbers, seeds, issuers, parameters, and all contents of freed memory", "why_tests_cant": "There are no tests of the Swift code; the claim is about every program that uses it.", "anchors": ["FFI.md:12-37", "swift/Credential/Credential.swift:84-92", "swift/Credential/Credential.swift:154-162", "swift/Credential/Credential.swift:189-219", "aeonflux/src/user.rs:54-85"]}
{"id": "C100", "title": "What each call takes from the generators, and one generator for all", "statement": "Each call reads a fixed stretch of its generators and nothing else: creating an issuer 128 bytes, committing to a number 64, issuing 32 of the caller's generator and 32 of thread_rng, showing 96 and 64; creating system parameters 32 for each attempt. Two generators that agree on that stretch give the same result, error or panic, and the generator is left just behind it. If the caller's generator is thread_rng, issue and show behave as with two generators, the second beginning where the reading of the first ends. In a run of the protocol with one generator of the caller's, or with thread_rng for everything, the calls therefore read disjoint stretches, and whatever results a run with a separate generator for each call can have, a run with a single generator can have as well.", "quantifier": "all generators, issuers, users, numbers, entries and parameters", "why_tests_cant": "A test sees the results for the bytes of one generator; that later bytes have no influence on a call, and that no byte is used for two calls, are statements about all of them.", "anchors": ["aeonflux/src/issuer.rs:136-195", "aeonflux/src/user.rs:176-251", "signal-credential/src/user.rs:99-140", "signal-credential/src/phone_number.rs:351-366", "aeonflux/src/parameters.rs:102-124", "signal-credential/tests/full-protocol.rs:31-93"]}
{"id": "C101", "title": "Nothing can be done from JavaScript with the parameters the API makes", "statement": "C51 says that what the JavaScript functions return is refused when passed back. That a program could pass something else instead is refuted: the encoding of the basepoint has the bytes e2 f2, which stand next to each other in no UTF-8 text. So no JavaScript value at all is read as system parameters, an issuer or a user whose generator g is the basepoint, as it is in all parameters that system_parameters_create makes. Every call that returns something other than 0 is one of system_parameters_create or has been given a string with another point in the place of g. What can be done from JavaScript is exactly what has only texts for its objects; for other generators this is possible, and ASCII is text.", "quantifier": "all JavaScript values, functions, seeds, randomness, and groups in which the encoding of the basepoint begins as that of Ristretto does", "why_tests_cant": "That nothing works with any value is a statement about all values; there are no tests of the JavaScript functions.", "anchors": ["wasm/src/js.rs:96-107", "wasm/src/js.rs:127-137", "wasm/src/js.rs:187-228", "wasm/src/js.rs:302-347", "aeonflux/src/macros.rs:12-51", "FFI.md:12-37"]}
{"id": "C102", "title": "A service whose calls share generators answers as with separate streams", "statement": "Take any history of issuers, users, rosters and presentations (C89) in which every call draws from two generators out of a pool: the one its caller hands over and the thread_rng of the thread it runs in, which may be the same. Every answer and all that is made is what it would be if each call had streams of its own; these are the stretches of the generators that follow each other, of 128 bytes for an issuer, 32 and 32 for an issuance, 64 for an entry and 96 and 64 for a presentation. An entry draws its opening before it looks at the number; an issuance refused for its number and a presentation refused for want of a credential have read nothing. No byte is read twice. Conversely, whatever streams the calls of a history are given, some generators give the same. So what C89 says holds for every such service.", "quantifier": "all histories, assignments of generators to calls, generators, parameters and groups", "why_tests_cant": "Tests run one sequence of calls with one generator and cannot see which bytes a call has used.", "anchors": ["signal-credential/src/issuer.rs:63-73", "signal-credential/src/issuer.rs:130-147", "signal-credential/src/user.rs:99-140", "signal-credential/src/phone_number.rs:351-366", "aeonflux/src/issuer.rs:136-195", "aeonflux/src/user.rs:176-251"]}
{"id": "C103", "title": "What can be counted on whoever sends what", "statement": "In a service to whose users and issuers anybody may send any bytes (C95), after any history, and with no assumption on proofs or challenges: every event has one of a few answers, which are seen from how many there are of each thing and which users hold a credential. Reloading whatever there is succeeds; registering, issuing and entering depend on the length of the number alone; showing succeeds for exactly the users who hold a credential; delivering and checking succeed or refuse. The program crashes exactly on numbers of 28 to 32 bytes and on messages of certain lengths, whatever came before. Messages from strangers change no more than the credentials of users, take none from anybody, and change no answer to the next event of the service, but that a user who held no credential may show one. A reload keeps everything except a credential that is all zeros in bytes; for this one the claim is refuted: who has the issuer's key can send a credential that is accepted, can be shown, and is gone after a reload.", "quantifier": "all histories, messages, numbers, randomness, parameters (also without independence of the generators) and groups", "why_tests_cant": "Tests send well-formed messages; that no earlier message can make a later call crash or fail is about all histories of arbitrary bytes.", "anchors": ["signal-credential/src/issuer.rs:47-181", "signal-credential/src/user.rs:45-140", "signal-credential/src/phone_number.rs:324-380", "signal-credential/src/credential.rs:64-109", "aeonflux/src/user.rs:54-107"]}
{"id": "C104", "title": "An issuer that uses one key for each user knows who presents", "statement": "The issuance proof shows that the issuer knows x0, not which x0: it comes with a fresh commitment to x0 that the user compares with nothing. In every history of registrations, issuances and presentations with an issuer that uses for each user any x0 it likes, all replies are those of an issuer with one key; they follow from the lengths of the numbers and who was enrolled. Of every presentation such an issuer names, by trying its keys, everybody with the same x0 as the presenter: with one key everybody, with a key for each user the presenter alone. That presentations do not tell the issuer who made them is therefore refuted for issuers that do not keep to one key, unless the nonce is the identity or two stated transcripts have the same challenge. The issuers with other keys can be written as bytes and read again and have the same public parameters. Each commitment sent is a commitment to every x0, and to tell credentials under one key from credentials under several is to decide whether points are multiples by one scalar.", "quantifier": "all histories, assignments of keys, numbers, roster entries, randomness and groups", "why_tests_cant": "Tests use one issuer key; that no reply anywhere shows other keys, and that every presentation shows them to the issuer, is about all histories.", "anchors": ["aeonflux/src/issuer.rs:136-260", "aeonflux/src/user.rs:140-260", "signal-credential/src/issuer.rs:130-155", "signal-credential/src/user.rs:87-140"]}
{"id": "C105", "title": "Which results of the API can stand for which arguments", "statement": "The calls take and return byte strings, and no string says of what kind it is. For every kind of result (parameters, key pair, issuer, issuer parameters, issuance, user, roster entry, entry without its opening, presentation, verified credential) and every kind of argument it is stated exactly when the result is accepted: always as what it is; a presentation always as a verified credential and a verified credential as a presentation; parameters always as issuer parameters and as a roster entry; an entry without its opening always as issuer parameters; in fourteen more pairs when named words that are scalars are also encodings of points or the other way round; never in the other pairs. It is stated exactly which results stop the program when they are passed for which argument. Parameters passed for a roster entry go through the presentation and its verification by the issuer, with g as the entry; passed for the issuer's parameters they give a user that no call accepts. A presentation read as an issuance is accepted by a user, when the issuer accepts it as a presentation, only if a stated show transcript and a stated issuance transcript have one challenge.", "quantifier": "all values of all kinds, all parameters, keys, users and groups", "why_tests_cant": "Tests pass the right things; that the pairs listed are all there are, whatever the values, is about all strings the calls return.", "anchors": ["aeonflux/src/parameters.rs:52-75", "aeonflux/src/amacs.rs:166-185", "aeonflux/src/amacs.rs:352-380", "aeonflux/src/issuer.rs:52-85", "aeonflux/src/credential.rs:211-330", "aeonflux/src/user.rs:55-120", "signal-credential/src/phone_number.rs:325-350", "signal-credential/src/credential.rs:65-135", "signal-credential/src/user.rs:46-65"]}
{"id": "C106", "title": "What running time shows of secrets through the C interface, and of values on their way to JavaScript", "statement": "Each C function, with its argument macros, decoders, library calls and encoders, is modelled with the branches, lengths and indices an observer of running time sees, and computes what it did. Two successful calls with the same pointers and lengths of the functions which create, restore or issue show the same, whatever keys, numbers, openings and randomness they use. The two verifying functions show of the issuer's key only whether they succeed; opening a roster entry and finishing an issuance show only whether they succeed and how long the number is. Presenting shows exactly with how many zero bytes two named ranges of the user's state begin: for users with ElGamal keys which powers of 256 divide the secret key (a leak), for users as these functions make them how many zeros the credential begins with. Handing a value to JavaScript writes its bytes in decimal and shows exactly how many digits each byte has, also of secret keys (a leak).", "quantifier": "all memories, pointers, lengths, seeds, keys, numbers, users, presentations and groups", "why_tests_cant": "That nothing else is shown is a statement about all pairs of runs with different secrets; tests measure some runs, with noise.", "anchors": ["ffi/src/macros.rs:20-120", "ffi/src/c.rs:60-290", "wasm/src/js.rs:106-346", "aeonflux/src/user.rs:55-120", "aeonflux/src/amacs.rs:187-282", "aeonflux/src/credential.rs:104-330"]}
{"id": "C107", "title": "What the check of a roster at a permission level gives, and what it does not", "statement": "A server keeps a list of commitments for each permission level, as the protocol test does. Verifying a presentation, verifying membership and looking the commitment up gives an answer exactly for the presentations taken, and it is whether the commitment was pushed at that level; comparing stored bytes gives the same answer. A user with a credential and an entry for the same number gets the right answer at every level of every roster; with an entry not for that number no answer, up to a zero challenge or a collision. But a presentation is bound to no group or level; whoever knows the number and opening of a listed entry needs no credential; a list is compatible with every choice of numbers, also all the same, each with exactly one choice of openings; taking any commitments off leaves other entries of the same person in force; and from a commitment alone anybody computes another for the same or a related number.", "quantifier": "all rosters and histories of pushes, levels, issuers, users, presentations, entries, numbers and groups", "why_tests_cant": "The one test has one user and one administrator; that the answer is right for every roster, and that a list fixes none of its members, is about all lists and all openings.", "anchors": ["signal-credential/tests/full-protocol.rs:66-92", "signal-credential/src/issuer.rs:148-181", "signal-credential/src/phone_number.rs:262-310", "aeonflux/src/pedersen.rs:35-60", "signal-credential/src/phone_number.rs:319-385"]}
{"id": "C108", "title": "Presentations of credentials with several attributes", "statement": "For issuers with any number of attributes and users who hold a valid credential: show succeeds with one nonce up to one for each attribute, and the presentation is accepted when the nonces after the first and the attributes without a nonce, each weighed with the issuer's key, both come to nothing; otherwise it is refused, up to a zero challenge or a collision. For fixed other nonces exactly one value of a nonce passes, so fresh nonces fail; zeros pass and show every other attribute to whoever guesses it. A holder who adds the sum of the other nonces to the commitment to the tag passes with all attributes hidden. Anybody passes without a credential and reveals what they like. An accepted presentation proves exactly that the first attribute is known and the tag comes out with the other commitments as they are, and whoever knows such values is accepted.", "quantifier": "all issuers, numbers of attributes, credentials, nonces, random streams and groups", "why_tests_cant": "The tests have one attribute; that every number above one fails for all but one in ell choices of nonces is about all keys and nonces.", "anchors": ["aeonflux/src/user.rs:176-251", "aeonflux/src/issuer.rs:197-229", "aeonflux/src/nonces.rs:158-196", "aeonflux/src/parameters.rs:28"]}
{"id": "C109", "title": "How rare the exceptions are", "statement": "Theorems such as C17, C22, C46 and C108 refuse a message unless a challenge is zero or two named transcripts collide. When challenges are values of a random function this is rare: in each of the five proof systems of proofs.rs, a proof made by the code's prover passes for all answers if the statements agree and the secrets are a witness, and otherwise for fewer than 2 ell of the ell^2 pairs of answers to the prover's and the verifier's question, also when the answers are made from 64 random bytes; with a wrong witness for the same statement it passes for exactly 2 ell - 1. This bounds the acceptance of presentations of an invalid credential, of several attributes, of entries that do not open, and of issuances that users do not take.", "quantifier": "all statements, secrets, commitment randomness, issuers, users, credentials, entries, random streams and groups; all pairs of answers", "why_tests_cant": "A test has one hash function; how many of the answers of a random one let a false statement pass is about all of them.", "anchors": ["aeonflux/src/proofs.rs:36-847", "aeonflux/src/issuer.rs:136-229", "aeonflux/src/user.rs:140-251", "signal-credential/src/user.rs:99-150", "signal-credential/src/issuer.rs:149-190"]}
{"id": "C110", "title": "What the bounds come to as numbers", "statement": "The bounds of C85, C91 and C109, read with l between 2^252 and 2^255. An adversary doing at most 2^s of everything it can do (tests, hashes, credentials, overheard presentations, values of the hash; s at most 122) forges a tag on at most one in 2^(246-2s) of the strings of random bytes, and passes for somebody on at most one in 2^(245-2s); with s = 58 that is less than one in 2^128. Who watches a group concludes anything nearly as often whoever joins: up to one in 2^(255-s) when the group draws 2^s scalars. An eavesdropper on encryptions with 2^s comparisons and scalars has an advantage of at most one in 2^(250-s). An exception counted in C109 happens for at most one in 2^250 of the pairs of strings. Much better does not hold: for every q up to l there is an adversary with q verifications that forges exactly for the q least values of x0.", "quantifier": "all generic adversaries, all s, all numbers of tests, hashes, credentials and presentations up to 2^s, all parameters and groups", "why_tests_cant": "A test can not try 2^58 steps, nor count the strings of bytes on which an adversary wins.", "anchors": ["aeonflux/src/amacs.rs:222-345", "aeonflux/src/issuer.rs:136-229", "aeonflux/src/user.rs:140-251", "aeonflux/src/proofs.rs:36-847", "aeonflux/src/elgamal.rs:30-200"]}
{"id": "C111", "title": "What the electron page and the errors show", "statement": "The page of build-test/electron alerts exactly the text of the point that maths computed, whatever has happened to the memory and to the cached view of it, and leaves every allocated block as it was; there is no alert exactly if there is no memory for the text. The text has 117 to 181 plain characters and tells the 32 bytes, so two runs show the same exactly if (1 + blinding * number) * k agrees modulo l. The derived == of the three error types holds exactly of equal errors and their {:?} tells all errors apart, lengths included. A number refused with an error is longer than 32 bytes and the error's name says so; errors of the other crate are shown as an invalid number. Refuted: that conversions between the error types keep the error: everything turned into a PhoneNumberError is the same error, and comes back as missing data; the error named PointDecompressionError in both types, with the same text, is converted into NoIssuerParameters.", "quantifier": "all lawful allocators, memories, cached views, decoders that know plain characters, random streams and errors", "why_tests_cant": "The page has no test; what is shown depends on the state of the memory and of the allocator.", "anchors": ["build-test/electron/src/lib.rs:17-27", "build-test/electron/site/electron.js:8-31", "build-test/maths/src/lib.rs:20-28", "aeonflux/src/errors.rs:24-134", "signal-credential/src/errors.rs:24-59"]}
{"id": "C112", "title": "What the seed of one call gives away", "statement": "That the seed of one call, once known, gives away no more than this call is refuted. (1) Issuer::issue draws the nonce of the tag and the blinding of the commitment to x0 from a generator seeded by the caller's stream alone. Who knows the seed of one issuance and has the issuance computes x0 B and x1 B, and from them a valid credential for every number, whose presentations pass with every entry for the number; so also from the bytes that the C, JavaScript and Swift functions give. The one exception is a nonce that is the identity. (2) The exponents of the nonces of two tags for different attributes are enough. (3) Who knows the seed of one presentation computes the tag of the credential that was shown, and can tell the number by trying. (4) Who knows the seed of a roster entry can tell the number by trying.", "quantifier": "all issuers with parameters as found by the library, streams and seeds, numbers, issuances, presentations, entries and guesses", "why_tests_cant": "No test looks at what can be computed from a seed; a forged credential exists for every number.", "anchors": ["aeonflux/src/issuer.rs:136-195", "aeonflux/src/user.rs:176-251", "signal-credential/src/phone_number.rs:351-363", "ffi/src/c.rs:129-152", "ffi/src/c.rs:211-236"]}
{"id": "C113", "title": "What a proof leaves in the transcript", "statement": "Proof::create and Proof::verify of the five proof systems take the transcript by mutable reference. A prover leaves the statement, its commitments and a taken challenge behind, whether or not its secrets are right; a verifier leaves the statement and the commitments the proof stands for, whether or not it accepts. The two transcripts are equal exactly when the secrets satisfy the relations, or the challenge is zero. Any number of true statements of any of the systems, proved and checked in turn over one transcript, are all accepted, and both ends are left with the same transcript. What is left determines the label and everything that was checked, in order; a challenge accepted after two different histories is a collision of the challenge function on the two transcripts.", "quantifier": "all transcripts, statements, witnesses right or wrong, proofs, lists of statements and random streams, five proof systems", "why_tests_cant": "Every test uses a transcript for one proof only.", "anchors": ["aeonflux/src/proofs.rs:87-176", "aeonflux/src/proofs.rs:230-343", "aeonflux/src/proofs.rs:414-591", "aeonflux/src/proofs.rs:642-720", "aeonflux/src/proofs.rs:770-845"]}
{"id": "C114", "title": "What the maker of the system parameters can do", "statement": "The documentation of SystemParameters asks that log_g(h) be unknown; nothing in the code sees to it. For every t other than 1, parameters with h = t g come out of hunt_and_peck for some random numbers and are taken by from_bytes, From<[u8; 32]> and From<RistrettoPoint>. Whoever knows t opens an entry made for one number to any other number, and the new opening survives serialization. With it the holder of a valid credential for the other number makes presentations that pass verify and verify_roster_membership for the entry of the first number, whatever the random numbers; also through the bytes which the C, JavaScript and Swift functions pass around. So it is false that an entry stands for one number whoever made the parameters. It is the only way: who opens one commitment to two numbers can compute t, and the second opening is the one computed from t.", "quantifier": "every external crate obeying ExtLaws; all t, parameters, issuers, users, credentials, entries, numbers, openings, seeds and random streams", "why_tests_cant": "The tests make their parameters from random numbers, where nobody knows t. That a trapdoor can be planted for every t, undoes binding for every entry and every pair of numbers, and is needed to undo it, is about all parameters.", "anchors": ["aeonflux/src/parameters.rs:31-172", "signal-credential/src/phone_number.rs:319-383", "signal-credential/src/user.rs:99-140", "signal-credential/src/issuer.rs:149-182"]}
{"id": "C115", "title": "Every build computes the same", "statement": "The library can be built with several curve25519-dalek backends (Cargo.toml: u32_backend, u64_backend, avx2_backend), with or without debug assertions, for targets of 32 and of 64 bits. If the crates of two builds agree up to how points are held in memory, then for every call of the API the two builds compute the same bytes and use the operating system's randomness alike; the decoders and the functions on what they return give the same results, errors and panics; JavaScript is given the same array, and C a buffer with the same bytes if the lengths passed fit in 32 bits; and with a key pair of 32 bytes or more, whatever a C or a JavaScript call answers, failures and undefined behaviour included, is the same; so is what each function of the Swift wrapper returns, for arrays shorter than 2^32. What differs is exactly shown: Keypair::from_bytes of fewer than 32 bytes and the conversions into SystemParameters of the basepoint, where a debug build panics and a release build returns an error or parameters.", "quantifier": "every pair of external crates obeying ExtLaws that agree on points up to a map; all calls, byte strings, random streams, C memories", "why_tests_cant": "A test runs one build. That no byte of any answer depends on the backend, the profile or the width of usize is a statement about pairs of builds and all inputs.", "anchors": ["aeonflux/Cargo.toml:52-66", "aeonflux/src/amacs.rs:352-367", "aeonflux/src/parameters.rs:139-172", "ffi/src/c.rs", "ffi/src/macros.rs:29-38", "swift/Credential/Credential.swift"]}
{"id": "C116", "title": "Blinded issuance gives the user a tag that verifies", "statement": "A user whose request is proved by attributes_blinded and who accepts an answer proved by issuance_blinded should obtain, by decrypting it, a tag on the encrypted attribute under the issuer's key. They do not: what the statement lets them decrypt is t0*m times the basepoint, in which x0 has no part. With t0 = b*x1 as meant, the tag is refused by SecretKey::verify unless b or x0 is zero; the term x0*P is what is missing. No t0 chosen without knowing m serves two attributes; an issuer who knows m (not zero) can choose one. If one point is passed as T0_0 and T0_1, the tag verifies exactly for the attributes with m(X0 - X1) = x0*A, and a proof made with t0 = b*x1 is refused.", "quantifier": "all requests, answers, witnesses, ElGamal keys, attributes and transcripts satisfying the two statements", "why_tests_cant": "The two proofs are only tested one by one, if at all; that no choice of the secret scalars makes them serve together is a statement about all witnesses.", "anchors": ["aeonflux/src/proofs.rs:178-345", "aeonflux/src/proofs.rs:347-593", "aeonflux/src/elgamal.rs:122-181", "aeonflux/src/amacs.rs:323-339", "aeonflux/src/credential.rs:126-155"]}
{"id": "C117", "title": "What the opening of a roster entry gives away", "statement": "FFI.md says that the opening in a roster entry should not be given to the server. Whoever has an entry with its opening finds the number among any candidates, and finds no other; for a number of n decimal digits 10^n trials suffice, from the 64 bytes of the entry or from the opening and the commitment in a presentation. Two entries with their openings show at once whether they are for one number. From the 32 bytes that remove_opening leaves, every number of up to 27 bytes is possible with exactly one canonical opening. If h is the identity, every number is found.", "quantifier": "all numbers, parameters, seeds, entries, lists of candidates, presentations", "why_tests_cant": "That no second number is found, and that without the opening every number is equally possible, are statements about all numbers and openings.", "anchors": ["FFI.md:46-60", "signal-credential/src/phone_number.rs:325-380", "ffi/src/c.rs"]}
{"id": "C118", "title": "A credential on its way is of use to its user only", "statement": "Refuted. The bytes issuer_issue returns hold the phone number in clear: for numbers of 1 to 26 bytes it is read off bytes 96 to 127, and for every length these 32 bytes stand for one number. Whoever has these bytes and what is public makes of them with user_obtain_finish the very bytes that the user makes, and from these, with entries for the number and whatever the seeds, presentations that pass issuer_verify and issuer_verify_roster_membership; the one exception is a tag whose nonce is the identity. What is left to the user is an entry whose opening nobody else has: shown with its commitment and any other opening, the credential is refused as that of a member, unless the challenge is zero or two named transcripts collide.", "quantifier": "all issuers with one consistent key, numbers, seeds, entries, openings, random numbers", "why_tests_cant": "That whoever reads the bytes is accepted whatever the seeds, and that no other opening of the entry is, are statements about all of them.", "anchors": ["aeonflux/src/credential.rs:226-242", "signal-credential/src/phone_number.rs:175-200", "signal-credential/src/user.rs", "ffi/src/c.rs", "FFI.md"]}
