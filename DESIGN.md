# Formal model of signal-anonymous-credentials — design

Source under study: `/repo`, that is the crates `aeonflux`, `signal-credential`, `ffi`, `wasm`
(with its JavaScript glue) and the Swift wrapper.  Everything here is a Rocq/Coq 8.16.1
development in `rocq/theories` (logical name `Verif`), using only Coq's own standard library.
The code was read as text; nothing in `/repo` was built or run.

## 1. How the code is modelled

* **Three outcomes.**  Every fallible Rust function returns `Ok x`, `Err e` (with the exact Rust
  error constructor) or `Panic` (slice out of range, `unwrap` on `None`, `assert!`,
  `copy_from_slice` length mismatch, overflow with overflow checks on).
* **Bytes** are `Coq.Init.Byte.byte`; slices, vectors and arrays are lists.
* **Scalars** (`curve25519_dalek::scalar::Scalar`, external crate) are the integer whose 32-byte
  little-endian encoding the Rust value stores.  Canonical constructors give `[0, l)`,
  `Scalar::from_bits` gives `[0, 2^255)` unreduced.  Every arithmetic operation reduces modulo
  `l = 2^252 + 27742317777372353535851937790883648493`.  Encoders and decoders are concrete.
  dalek's addition of two *unreduced* scalars is also modelled as reducing; no code in `/repo`
  adds two scalars that can both be unreduced without a multiplication in between.
* **Ristretto points** (external crate) are the carrier of a record `Ext`, quantified in every
  theorem, with the laws `ExtLaws`: abelian group of exponent `l`, generated by the basepoint,
  which is not the identity; decidable equality; 32-byte canonical compression, the identity
  compressing to 32 zero bytes.  Scalar multiplication is *defined*, as iterated addition.
  `Toy.v` gives an instance (the integers modulo `l`), so the laws are consistent, and the
  instance runs the model in the examples.
* **Merlin transcripts** (external, version 0.2) are the label and the list of (label, data)
  operations.  The challenge is an arbitrary function of that list (a field of `Ext`), so the
  theorems hold for every such function.  The usual security statements for Fiat–Shamir proofs
  are therefore three theorems: special soundness (two accepting proofs with equal commitments
  and different challenges give a witness), acceptance (a proof is accepted exactly if the
  challenge of a *named* transcript equals the one in the proof) and rewinding.  Where a
  statement says "unless the challenge function collides" the two colliding transcripts are
  named; an unnamed collision would exist by the pigeonhole principle and say nothing.
* **Randomness** is a byte stream per generator.  `thread_rng` is a separate stream `os`; C100 shows that this covers callers who pass `thread_rng`.
  `TranscriptRng` and `ChaChaRng::from_seed` are arbitrary functions in `Ext` from what they are
  keyed with to streams.  "For every randomness" means for every such stream.
* **bincode 1 and serde_json** (external) are modelled for the shapes `/repo` uses: byte strings
  with an eight-byte length, structs of scalars, and JSON values with UTF-8 strings.
* **usize** is modelled where it matters: subtraction in `SecretKey::from_bytes` and
  `Keypair::from_bytes` (with `debug_build` for overflow checks), and the conversion of `u64`
  lengths in the C API (`usize_bits` is 32 or 64).
* **The C API** runs over an explicit memory: blocks which are absent, live or freed, pointers
  with offsets.  Reading a freed or absent block is undefined behaviour.  A call returns, unwinds,
  is undefined, or is still running (`hunt_and_peck` loops until it finds a point; the model
  gives it fuel).
* **The Swift wrapper** is modelled over the C API.  Its reading of the freed result buffer, which
  the C standard leaves undefined, is modelled as arbitrary bytes (`reuse_of_freed`), so the
  statements hold whatever is found there.
* **The WebAssembly API** takes and returns JSON values.  A panic is a trap.  `ModelGlue.v` models
  the table of objects of `credential.js`, `ModelMemory.v` the linear memory through which arrays and
  text pass.  The allocator in the `.wasm` file is a parameter.
* **Destructors** run over a memory of scalar cells; freeing does not change a cell.

`Model*.v` hold only definitions; each cites file and lines.  `Spec*.v` hold the vocabulary of the
statements.  All of them import the model for its record types.  `Spec`, `SpecProofs`, `SpecCodec` and `SpecErrors`
are written over those records and the operations of the external crates (points, scalars, bytes).
They call no function modelled from `/repo`, except that the forgeries of C19 in `Spec` run the
provers `vc_create` and `ce_create`, as an attacker would.  `SpecGame` runs `mac_with`, `mac_verify`,
`get_public_key` and `commitment_to`, which are the oracles of the adversary; `SpecOracle`, `SpecPresent`, `SpecOverheard` and `SpecObserve` the same.  `SpecElgamal` calls `elgamal_encrypt`, `elgamal_public_of_secret` and `phone_number_encrypt`, which are the oracles of its eavesdroppers.  `SpecHistory` calls in `step` the functions whose answers it is about; `expected` and what belongs to it call nothing of the model.  `SpecStrangers` does the same in `open_step`, and calls `issuance_to_bytes` to tell copies.  `SpecDerived` uses the records only.  `SpecDenial` calls `signal_verify` and `verify_roster_membership` in `takes` and `open_step` in `open_after`.  `SpecSeeds` uses the records only.  `SpecMobile` uses the Swift functions to say which objects there are.  `SpecReads` uses the calls of the protocol to say what a run is.  `SpecScript` uses the records and `utf8`.  `SpecPool` uses `step` of `SpecHistory` and the calls of `ModelPool`.  `SpecRobust` uses `open_step` of `SpecStrangers`, `decompress` and the records.  `SpecMarked` runs the functions of `ModelSignal` and uses `valid_credential` of `Spec`.  `SpecConfusion` names encoders and decoders, and says the rest with `compress`, `le32` and `field`.  `SpecTimingFfi` uses only the result of a call and plain bytes.  `SpecRoster` uses `In` and the equation of a commitment.  `SpecMany` uses the equation of a tag and sums over lists.  `SpecRare` uses the records, `SpecFork` and `reduced` of `SpecBlocks`.  `SpecLevel` is arithmetic only.  `SpecLeak` is what a thief computes from a seed.  `SpecSequence` is a caller of several proofs.  `SpecTrapdoor` is what is computed from the logarithm of `h`.  `SpecBuilds` is when two builds have the same crates.  `SpecBlind` is what a user makes of a blind issuance.  `SpecSearch` runs `roster_open` on candidates.  `SpecTheft` reads the number off an issuance.  `SpecByteHistory` does the same with `gives`, `c_run` and `step`.  `SpecBytes` calls `observe` of `SpecObserve` and, of the model, `elgamal_public_of_secret`.  `SpecFork`, `SpecTiming` and `SpecWork` call nothing of the model.  `SpecFfi`, `SpecSwift`, `SpecCalls`, `SpecSerde`, `SpecRandomness` and `SpecMacros` are
about a layer built on others, and say what the upper layer should do in terms of the functions of the
lower one (for example, Swift's `verify` in terms of the Rust `signal_verify`).  `*Facts.v` hold
lemmas.  `Properties*.v` hold the property theorems, each followed by `Print Assumptions`.  Each
property has at least one `Example` showing a concrete case that meets the hypotheses; theorems of one
property with the same hypotheses share an example.

## 2. Which code is modelled

| source | model |
|--------|-------|
| `aeonflux/src/amacs.rs` | `ModelAmacs` (keys, tags, `mac`, `verify`, codecs), `ModelDrop` (destructors) |
| `aeonflux/src/parameters.rs`, `nonces.rs`, `pedersen.rs`, `elgamal.rs` | `ModelPrims`, `ModelDrop`, `ModelOps` (operators, conversions) |
| `aeonflux/src/proofs.rs` | `ModelProofs`, all five modules; `ModelLeft` (the transcript afterwards) |
| `aeonflux/src/proofs_macros.rs`, `zkp-expand` | `ModelMacros` |
| `aeonflux/src/credential.rs` | `ModelCredential` |
| `aeonflux/src/issuer.rs`, `user.rs` | `ModelIssuer`, `ModelUser` |
| `aeonflux/src/errors.rs`, `signal-credential/src/errors.rs` | `ModelErrors`, `ModelDisplay` (texts) |
| `aeonflux/src/macros.rs` | `ModelSerde` |
| `signal-credential/src/phone_number.rs` | `ModelPhone` |
| `signal-credential/src/credential.rs`, `issuer.rs`, `user.rs` | `ModelSignal` |
| what `#[derive(Debug, PartialEq, Default)]` generate | `ModelTests`, `ModelDerived` |
| what an observer of running time sees of the Rust functions | `ModelTiming` |
| the same of the encoders, of ffi/src/macros.rs and c.rs, and of JSON text written by wasm/src/js.rs | `ModelTimingFfi` |
| the server's lists and check in signal-credential/tests/full-protocol.rs | `ModelRoster` |
| the tests of `aeonflux` and `signal-credential`; of `ffi` | `ModelTests`; `ModelTestsFfi` |
| `build-test` (`maths`, `alloc`, `ios`) | `ModelBuildTest` |
| `build-test/electron`, derived traits of the errors | `ModelElectron` |
| `ffi/src/c.rs`, `macros.rs`, `include/credential.h` | `ModelFfi`, `SpecFfi` (documented lengths) |
| `swift/Credential/Credential.swift`, `credential.h` | `ModelSwift` |
| `wasm/src/js.rs` | `ModelWasm` |
| `wasm/src/credential.js` | `ModelGlue` (object table), `ModelMemory` (linear memory) |

Not modelled:

* `User::blind_request` (`user.rs:255-267`): it ends in `unimplemented!()` and does not type-check.
* `Clone`, `Copy` and `Hash`.  The one-line operators and conversions are in
  `ModelOps`; where other code uses one, the model of that code has the operation it forwards to.
* Side channels other than those of C92, C94 and C106, and timing of the Swift layer and of reading JSON; copies the compiler makes of moved secrets; byte arrays such as
  the temporaries of `from_bytes` (in C54).
* Swift's memory management; JavaScript values without a JSON form (`undefined`, functions); the
  compiled `.wasm` files.
* The Java and JNI samples, and `build-test/aos`, which has no code; the benchmarks, written for an earlier version of the
  library.
* The external crates beyond what section 1 says of them.

## 3. Properties

See `properties.jsonl` for the statements and `MANIFEST.json` for the theorems.  "Refuted" means
that the promise is false of the code: the theorem ending in `_refuted` shows it, mostly for *all*
inputs of a kind, not for one.

| id | result |
|----|--------|
| C01, C02 | proved for all streams and numbers of 1 to 27 bytes; C02 through the bytes in C memory |
| C03 | proved exactly (verifies unless the nonce is the basepoint) |
| C04 | proved; uses primality of `l` |
| C05, C06 | refuted: identity tag accepted for every key; messages of other lengths accepted |
| C07, C08 | proved; C08 is an attack: two tags with one nonce forge every tag |
| C09 | proved exactly, in the order the errors are checked |
| C10 | proved for every one-attribute issuer |
| C39 | proved for all five systems |
| C11, C18, C21, C40 | special soundness with a computed witness, exact acceptance, and rewinding |
| C12, C13, C14 | refuted for every accepted issuance / number / key |
| C15, C55 | proved by induction over histories |
| C16, C17 | proved; C17 modulo challenge zero or a named collision |
| C19, C20 | refuted: forgery computed from public data, accepted for every issuer |
| C22, C56 | proved modulo a named collision |
| C23, C24 | existence and uniqueness of the matching coins; seed reuse |
| C25 | refuted; the decoders of the verified and unverified type are equal |
| C26–C28, C58, C59 | phone numbers: proved or refuted at the exact boundary lengths |
| C29–C31 | proved |
| C32–C35 | per type; non-canonical and panicking inputs characterised exactly, then refuted |
| C36, C37 | proved as equivalences |
| C38 | the hashed transcript is injective in statement and commitments, across systems |
| C41 | bijection between coins and responses, and equality with the simulator |
| C42, C43 | refuted; C42 proved for the other four systems up to a discrete-logarithm relation between the bases of the statement |
| C44 | first usable block; identity exclusion refuted |
| C45, C46 | refuted; uselessness modulo a named collision |
| C47–C50, C60–C62 | C API over explicit memory; C47, C48, C49, C60, C61, C62 contain refutations |
| C51 | refuted: no value the API returns is accepted by it |
| C52 | proved for all 23 types, panics refuted |
| C53 | refuted but for opening roster entries |
| C54 | destructors proved; rejected keys left in memory refuted |
| C57 | primality certificate checked in Coq |
| C63 | where every blinding scalar comes from, and what its generator is bound to |
| C64 | `proofs.rs` is the expansion of `proofs_macros.rs`; unused secret refuted |
| C65 | object table of the glue proved; leak on panic refuted |
| C66 | existence and uniqueness of the matching opening and coins; anonymity among roster entries refuted |
| C67 | proved modulo a named collision; refuted for the identity as nonce |
| C68 | refuted, with three consequences of unchecked parameters |
| C69 | proved with an exact bound against adversaries that use the group as a black box; refuted if `h` is the identity |
| C70 | proved: the distance of reduced random bytes from uniform scalars, exactly, and what it costs C69 |
| C71 | proved: for each test of the two crates, the random choices and constants for which it passes |
| C72 | refuted: seven of the eight tests of the C interface cannot pass without reading freed memory |
| C73 | proved: the buffers of build-test hold what they should; refuted: they are freed |
| C74 | proved with an exact bound against adversaries that use the group and the hash as black boxes; refuted if scalars are reused |
| C75 | arrival, freeing and text proved for every allocator; refuted: a missing second array leaks the first; strings and bytes of a number are both accepted and differ |
| C76 | refuted for all credentials and numbers: a revealed attribute shifts the number; proved: not possible from bytes |
| C77 | proved with an exact bound against adversaries that use the group and the hash as black boxes; refuted if the logarithm of `h` is known |
| C78 | proved: a table of faults per format (`SpecErrors.v`) gives the exact error or panic; refuted: an undecodable point is not always reported as such |
| C79 | proved: the texts differ, and when each is returned; refuted: the lengths they give, three more texts, and one conversion |
| C80 | proved, for all operators and conversions |
| C81 | proved with an exact bound against adversaries that use the group and the hash as black boxes; refuted for copies, and if the scalar that hides the tag leaks |
| C82 | proved, equal in both worlds, for all adversaries; refuted for users whose credential's nonce is the identity |
| C83 | proved, for all provers in the random-oracle model; counting pairs of runs |
| C84 | proved, for all provers in the random-oracle model; counting triples of runs |
| C85 | proved: C74 and C81 counted in random bytes, with the bytes that make the second generator; refuted for the identity |
| C86 | proved, for all provers and coins in the random-oracle model |
| C87 | proved for every call from C, JavaScript and Swift but the opening from C, which is C48 |
| C88 | proved: exact reduction for all eavesdroppers, bound for generic ones; refuted for chosen ciphertexts |
| C89 | proved, up to named collisions where somebody is to be refused |
| C90 | proved, up to the same collisions; for C and every interface like it, not JavaScript (C51) |
| C91 | proved; that the reduction is uniform is refuted |
| C92 | proved; refuted for the number of digits, for numbers as text and for reading a user's state |
| C93 | proved: two claims of the comments; refuted: the other claims in the statement |
| C94 | proved; refuted for a bound on reading issuers |
| C95 | proved while no user takes a forged credential; that none does is refuted |
| C96 | proved for ==; refuted for {:?} keeping secrets and for the use of default() |
| C97 | proved; that a presentation is good for one use is refuted |
| C98 | refuted for every seed and each pair of functions that read it |
| C99 | refuted for every program that uses the Swift classes; what is left is stated |
| C100 | proved |
| C101 | refuted for every JavaScript value and call; what is left is stated |
| C102 | proved |
| C103 | proved; that a reload keeps a user's credential is refuted for the one whose bytes are all zeros |
| C104 | proved; that the issuer does not learn who presents is refuted for issuers with a key for each user |
| C105 | proved |
| C106 | proved; refuted for presenting with an ElGamal key and for JSON |
| C107 | proved; binding to a level, need of a credential, distinct members and removal refuted |
| C108 | proved; acceptance with fresh nonces, hiding with zeros and need of a credential refuted |
| C109 | proved |
| C110 | proved |
| C111 | proved; that conversions keep the error refuted |
| C112 | refuted, for every call with a seed |
| C113 | proved |
| C114 | refuted for every trapdoor; the converse proved |
| C115 | proved; refuted for short key pairs and the basepoint as `h` |
| C116 | refuted for every honest witness; what is obtained is proved exactly |
| C117 | proved |
| C118 | refuted for every issuance with a nonce other than the identity; what is left is proved |

**The game of C69** (`SpecGame.v`).  The other theorems about soundness produce a witness or a collision;
C69 is the one that says tags cannot be *made*.  That cannot be proved for arbitrary programs without
assuming a problem to be hard, so the adversary is generic: a decision tree that forms linear combinations
of the points it holds, tests them for being the identity, asks for credentials (with any attributes, one
after another) and has tags verified by `mac_verify`.  The theorem counts: of all keys and coins, each
taken once, at most the fraction `3 * checks / l` makes the tree forge.  The proof writes each point held as a
polynomial in the key and the coins, shows that no combination is a valid tag on a fresh message
identically, and bounds the zeros of a polynomial (`Polynomials.v`, Schwartz–Zippel).  Not included: programs
that use the encoding of points.  The proof in an issuance is added by C74 (`SpecOracle.v`).
There the hash is a random function: its value at nine points is drawn when they are first hashed, by the
adversary or in a proof.  The proof of C74 answers with made-up responses and computes what was hashed from
them; this is noticed only if those points had been hashed before, which is where `N M` comes from.  The tests
needed to look points up in the table of hashes are where `9 M h` comes from.
The coins of C69 are uniform scalars; C70 replaces them by the bytes the code reduces, so what is left to assume is
that the generator's bytes are uniform.  Excluded from winning: the identity as nonce (C05) and
attributes of another length than the key (C06), where forging is easy.

**The game of C77** (`SpecPresent.v`) is the same for presentations.  The adversary asks for credentials, hashes,
and has presentations checked.  The second generator's logarithm is drawn with the key, since whoever
knows it opens an entry to every number.  The proof keeps the table of the hash as polynomials; for each list of
points hashed there is at most one challenge for which a false statement could be proved (two would give a witness),
and if it does not come up an accepted proof has a witness that is the same for all keys.  Then the
presentation contains a valid tag identically, which C69's argument excludes.  Not included: the proofs of issuance
(C74) and presentations of others, both added by C81; revealed attributes (C76), parameters whose first generator
is not the basepoint, the identity as nonce (C19, C20).

**The game of C81** (`SpecOverheard.v`) adds all that an adversary can see: the proofs of issuance and the
presentations of honest users, for numbers and openings it names.  Winning with a copy is excluded, since copies are
accepted (C55).  The proof has three parts.  `OverheardTrace.v` maps the coins of a run to the challenges and
responses that come out, in the order in which they do; no two runs are mapped to the same (`trace_inj`), and
a won run is won in the simulated game (`sim` in `OverheardGame.v`), where challenges and responses are drawn first and what was hashed
is computed from them.  There the adversary also wins if those points had been hashed before.  `few_sim` bounds the simulated game
with the method of C77: the table of the hash holds polynomials, and each list of points in it is one for which no false
statement was lucky, or one of an honest proof.  `OverheardFacts.v` shows that a presentation accepted because of a list of the
second kind is a copy, and that one accepted because of the first kind contains a tag which
no combination of the points held gives (`formal_pass_all`), the scalars hiding the overheard tags being variables.  Honest users
show entries for the number of their credential; the nonce of a presentation is a uniform point
because the credential's is multiplied by a uniform scalar (`C81_nonce_uniform`).

**The game of C82** (`SpecObserve.v`) is the one for privacy: a Coq function of all seen so far chooses what is asked next, so the
adversary may know every key, credential and number and compute anything.  `observe` returns all that is seen and the random scalars
left; without the latter the matching choice would not be unique, as scalars nobody uses could be any.  The proof joins
C66_two_members and the unique opening of commitments step by step.  Not included: presentations without a roster
entry (C23), the requests, which name the number in the clear, timing.

**The provers of C83** (`SpecFork.v`) are trees: a question to the hash function and what to do with each answer.  All else a prover depends on,
its own coins included, is fixed, and the theorem holds for each choice of it; C86 averages over coins.  The values of the hash function at new questions come from a list of q canonical scalars, so lists for
which the prover succeeds are counted, not probabilities computed.  `C83_forking` knows nothing of the code: it is the forking lemma, proved
by Cauchy-Schwarz on the classes of lists alike up to the deciding question.  The other theorems put the code's questions and extractors (C11, C18,
C21) into it; `C83_presentation_taken` and `C83_membership_taken` say that `taken` with the code's own challenge is what the code accepts.

**C84** runs the prover three times, the second time from the question of the presentation and the third from that of the
membership.  Both are forks of one first run, so the two openings of the blinded attribute can be compared.  Pairs of forks of one run cannot be counted by
Cauchy-Schwarz; `HeavyFacts.v` shows instead that at most a quarter of the values have too few others like them before the one question, and
at most a quarter before the other.  If the two numbers differ the discrete logarithm of the nonce to the base h is computed, and with it a tag for
every number; when the nonce is the identity (C19) this is the trivial tag.

**C85** (`SpecBlocks.v`) counts strings of bytes where C74 and C81 count scalars.  Each scalar, each challenge included, is a block of 64 bytes, and
the second generator is the first string of 32 bytes which `peck` takes, so t is no longer assumed to be other than 0.  Which block is for which scalar does
not matter for the bound; that the code's scalars are blocks of its streams is C70_key_of_stream, C74_oracle_is_issue and C81_overheard_is_show.

**C86** (`SpecCoins.v`) lets everything depend on coins, one from a list R: the issuer and its parameters, the number and opening of the entry, and the
prover, so the prover of a coin may use credentials issued and presentations made with that coin.  Nothing is assumed about how.  `C86_forking`
and `C86_two_forks` average C83 and C84 over R.  `C86_roster` needs only that each entry of the roster was made for a number with some opening, which the
prover need not know: that is what `roster_create` does (C82_join_is_create).  The prover may choose the entry at any time.  Nothing is lost for that, since
the entry is in the question that is asked again.  What is computed from three runs is given by two formulas,
`owner_tag` and `owner_log`, one of which is right.

**C87** (`SpecCalls.v`) gives the API once, as eleven calls on byte strings, in terms of the Rust functions and the decoders and encoders
only (`gives`).  `c_is` and `js_is` say which call a C function with its arguments in memory, or a JavaScript function, is; `sw_does` what a Swift function
does with the bytes.  The theorems are equivalences, so a wrapper that swaps or drops an argument, skips a check or encodes the wrong object
makes one false.  Panics are not described here (C49); the bytes Swift sees are those found in freed memory (C52).

**C88** (`SpecElgamal.v`).  `exactly n P` says that n things are P, with a list of them without repetition.  Keys and nonces are counted among
the canonical scalars; that 64 random bytes give nearly that is C70.  The eavesdropper is any function from the public key to a tree that names messages and
receives encryptions; it is run against `elgamal_encrypt` itself.  `pretended` makes encryptions from three points and two coins; `C88_reduction` is an
equation between counts, with no error term: the difference in what the eavesdropper says is l/(l-1) times the difference of two advantages against the secret.
`C88_counts` shows that the numbers exist for every eavesdropper.  In `C88_generic` the messages are combinations of the points held, and the bound
follows from counting zeros of polynomials of degree two in the key and the nonces.  `C88_altered_refuted` is why none of this holds when others' encryptions can be had decrypted.

**C89** (`SpecHistory.v`).  `step` is the service: lists of what the functions of signal-credential return, and for each event the call that it stands for.
`expected` is the machine to compare it with.  It keeps numbers of participants and phone numbers only, so nothing of the model but the names of the errors enters.
The two are compared by the answers they give, over all histories (`C89_history`).  `mishap` names for each event that should be refused which equation between
challenges, keys or zero would let it pass; it is False for all other events, whence `C89_unrefused`, which has no exception.  `C89_member` reads off the
ledger what acceptance means.  The example runs 20 events on the toy instance; every answer, refusals included, is the expected one.

**C90** (`SpecByteHistory.v`).  The participants of `byte_step` are lists of byte strings, and what they do is call an `interface`, any function that computes
what `SpecCalls.gives` says (`computes`).  `byte_expected` is the machine to compare it with, again without any of the model's objects.  `c_interface` puts the
arguments into fresh memory blocks, runs the model of the C function and takes the bytes last where the result points to; `C90_c_computes` shows from C87 that it
computes, and `C90_c_history` starts with the C call that makes the parameters.  The objects whose bytes are kept appear in the statement only in `byte_mishap`,
which names the collisions of C89.  The example runs 16 events through the C model on the toy instance.

**C91** (`SpecBytes.v`).  `on_bytes` counts strings of 64 bytes where C82 and C88 count scalars; the strings become scalars by `SpecBlocks.reduced`.  `C91_counts`
carries any count over, from both sides, and is the only place where it matters how scalars are made.  The watcher is `SpecObserve.observe`, whose scalars
`watched_coins` takes in order from the strings; which string is for which scalar does not matter for the
counts.  That the code's scalars are blocks of its streams is C82_join_is_create, C81_overheard_is_show and `C91_key_of_stream`.
`C91_uniform_refuted` shows that no exact statement is to be had: l would have to divide 2^512.

**C92** (`ModelTiming.v`, `SpecTiming.v`).  Each function `t_f` is `f` with the list of events an observer sees, and `C92_computes` shows that its result is that of `f`; so
only the events are new.  That they are all there is to see is an assumption about compiler and machine: a branch the compiler adds is not in the model, and one it
removes is (a `match` on digits may become arithmetic).  What the external crates show is taken from their documentation, in the comment at the head of
`ModelTiming.v`: arithmetic, `multiscalar_mul`, `compress` and `==` on scalars and points nothing but lengths, `decompress` and `from_canonical_bytes` whether they
succeed, `vartime_multiscalar_mul` its scalars, which in the code are those of the proof.  It is not taken to show its points.  If it did, `Issuer::verify`, which
passes it the V computed from the key, would show products of the key.  The theorems compare two runs on different secrets.  Where the
events depend on the answer the theorem is an equivalence, so it also says that the answer is shown.  `C92_decode_user` says exactly what the comparison with
zeros in `User::from_bytes` shows, and `C92_decode_user_refuted` says it of the key.  What is public is what the two runs have in common: the presentation or
issuance, the lengths (`same_counts`, `same_holding`), the tag in `C92_mac_verify`.

**C93** (`PropertiesDocs.v`; no model of its own).  The comments of `/repo` were gone through claim by claim.  Those that other properties take up are not repeated: errors of decoders and
their texts (C78, C79), what the header says of failures and lengths (C48, C60), the promise never to panic (C27), the example of `try_from_string` (C80), erasing (C54), the type of
verified credentials (C25).  Comments that promise nothing a run could break (names of functions which do not exist, such as `issuer_get_keypair()`) are left out.  In `C93_two_forms_refuted`
the two forms are any two different byte strings; `server_form` and `client_form` are those of the comments.

**C94** (`SpecWork.v`) counts the events of `ModelTiming.v`, an operation on many elements counting as many and one more.  Between two events the code runs straight
on, so the steps bound its running time up to a factor that does not depend on the input; hashing, arithmetic and drawing scalars happen a fixed number of times between two events.
Where a theorem gives an equation the count is exact; the Examples show that honest calls reach the other bounds.  Not counted: writing bytes, and reading presentations and
issuances, whose loops are over fixed-length pieces of the input (C33), and what the C, JavaScript and Swift layers add.

**C95** (`SpecStrangers.v`) adds to `event` the messages of strangers; `open_step` reads the bytes and calls the function they are for, and `own_events` is the part of a history that is the service's
own.  `no_forgery` says that no user takes a credential which is not a copy; it is a condition on the run, not on the messages, so refused forgeries are allowed.  It holds as
long as nobody can make a proof of issuance or change what the proof leaves out; C11 is about the first and C12 about the second, and `C95_lost_refuted` is what the
second means for a service.  A stranger's `SendEntry` makes a user present their credential with an entry of the stranger's choosing; what that reveals is the subject of C66 and C76, here only that it changes nothing.

**C96** (`ModelDerived.v`) writes out what `#[derive(Debug, PartialEq, Default)]` generate.  The texts take those of scalars and points as parameters `ds` and `dp`; `scalar_debug` is what curve25519-dalek prints for a scalar,
from memory, since its source is not here.  The text of a point depends in truth on how it is represented, not only on which point it is; `dp` is a function of the point, so `C96_debug_tells` is about points
printed by value, and `C96_debug_shows_refuted` holds whatever `dp` is.  `SpecDerived` lists the scalars of each record by hand, independently of the texts.  `Eq` adds nothing to `PartialEq`.  `default()` is called nowhere in the repository.
`CredentialBlindRequest` and `CredentialBlindIssuance` have no records in the model and are left out; the errors' comparisons, `Hash`, `Clone` and `Copy` also.

**C97** is about what a presentation proves to its reader.  The replay is in the machine of C95: no event makes an issuer remember.  The rest says that the simulator is perfect.  `C97_third_party`: every credential is
somebody's, as each tag is right under one key with the given public part (`issuer_of`).  `C97_made_up` is an equivalence between what such issuers take and what `signal_show_with` of C66 makes with a tag of one's own choice.
`C97_issuer_can` needs the opening of the entry, which only who made it knows; without it C66 says only that there is one.  None of this says that a third party who is told the secret key, or who trusts
the issuer's word, learns nothing.

**C98** is about streams `r`; a seed is the stream `chacha seed`.  `SignalIssuer::create`, `RosterEntryCommitment::create` and `SignalUser::show` take their first scalar from the first 64 bytes of it.  `Issuer::issue`
reads the stream only through a transcript (`reseed`), so its scalars are not among these; two calls of it are C08.  "Can try" means an equation between public points that holds for exactly the right number.
The tests of `ffi/src/c.rs` use one `SEED` (296) for every call: bytes 32 to 63 of their `ISSUER_KEYPAIR` open the entry of their `PRESENTATION`, which `validation/vectors.py` checks.

**C99** puts C53 and C87 together.  `parameters_object`, `user_object` and `can_show` (`SpecMobile`) are what programs get by calling the Swift functions in any memory; arrays fit in the address space.  A
user made with 96 bytes of parameters is encoded in 352 bytes, and `User::from_bytes` wants 256 after the number, so the length alone makes `show` fail and the contents of freed memory do not matter.

**C100** says how many bytes the calls read.  `reads n f` (`SpecReads`) is: `f` gives the same on streams that agree on `n` bytes and leaves the stream behind them.  `ModelThread` has `issue` and `show` once
more, with one stream for the caller's generator and `thread_rng`; `thread_is` relates them to the two-stream functions.  The runs compared are create, issue, take, commit, show.

**C101** is to JavaScript what C99 is to Swift.  `where_g` and `has_at` (`SpecScript`) say where `g` stands in an argument by its place in the bytes; `values_of` names the arguments passed as values.

**C102** puts C89 and C100 together.  `ModelPool` has the calls with handles to generators in place of streams; it also says where the generators stand when a call fails.  `pool_step` (`SpecPool`) is `step` with these.  `deal` gives every call the stretches it reads, by position, and `stretches` lists these.

**C103** is C95 without its alternatives: where C95 says which answer is given unless a proof is forged or two challenges agree, C103 says which answers there can be at all.  The book of `SpecRobust` has only counts and who holds a credential; `allowed` gives the answers, `recorded` what they change, `crashing` the inputs that crash the program.  The parameters are any: nothing is assumed of them.

**C104** turns C14 and C67 into an attack in histories: `happens` of `SpecMarked` runs the functions of users and issuer, the issuer with the key `x0 k` for user `k`; `named` is what the issuer computes from a presentation, and `promises` gives the replies without any key.  The histories have no reloads and no strangers (C95, C103 have them).  `C104_credentials` says why users cannot find out by comparing: the credentials of several users under one key are a Diffie-Hellman instance; it is a statement about tags only, the proofs that come with them say nothing about the witness (C41).

**C105** puts the encodings side by side: `made` of `SpecConfusion` are the strings the encoders give for values as the calls make them, `taken` and `crashes` say what the decoders do, and `table` and `crash_table` say for which pairs, in terms of 32-byte words only.  Of Ristretto one string in eight encodes a point and one in eight is a reduced scalar, so the conditions on one word are met by one value in about eight; this is not in the model, in which the encoding of points is any injection into 32 bytes.  Arguments that are read as plain bytes (seeds) accept everything of 32 bytes and are not in the table.

**C106** (`ModelTimingFfi.v`, `SpecTimingFfi.v`) continues C92 outwards: the encoders, the decoders C92 left out, `macros.rs`, `c.rs`, and the JSON text of `js.rs`.  `C106_computes` shows that each timed C function computes what `ModelFfi` says.  The two runs have pointers and lengths in common and both succeed, or (where a check is made) both succeed or both fail; of bytes they have in common only what the theorem names.  `t_decimal` finds the number of digits by two comparisons; serde_json's own code (`itoa`) makes the same distinctions, and that it makes no other is assumed.  How the text is parsed on the other side, and what V8 does with it, is not timed.

**C107** (`ModelRoster.v`, `SpecRoster.v`) takes the server's part from the protocol test, the only place where a roster exists: two vectors, `push` and `contains`.  `allowed` is the three calls in the order of the test.  `C107_decides` says what it answers with `takes` (C97) and `In`; the other theorems say who is let in.  Removal is not in the code, so it is any change that leaves exactly the other commitments (`without`).

**C108** (`SpecMany.v`) drops the hypothesis `single_attribute` of C16 to C19 for `User::show` and `Issuer::verify`.  `remainder` says what the verifier's `V` is, in one formula for all numbers of revealed and hidden attributes; the loops of the model are shown to compute it.  The collision in `C108_presented` is between the transcript the prover hashed and the one the verifier recomputes.

**C109** (`SpecRare.v`) counts the answers of a random function for which the exceptions in C17, C22, C46 and C108 happen.  A prover of the code is `makes x output`: it asks `x` and puts the answer into its message.  Each theorem says also that the message of the code is `output` at the challenge of `x`, and that the code's verifier accepts when the challenge in the message is that of `question`; so the real run is the one with the answers of the real hash.  `passes` is that of `SpecFork`: two questions which are the same get the same answer.  The randomness of the commitments is that of the code and fixed.

**C110** (`SpecLevel.v`) turns the bounds of C85, C91 and C109 into powers of two: `one_in k n total` is `n * 2 ^ k <= total`, `work s n` is `n <= 2 ^ s`, and `strings n` is the number of lists of `n` strings of 64 bytes, so the factors `(2 ^ 512 + ell) ^ n` of C85 and the shares of C91 are gone.  The scope is that of the theorems used.  `C110_reached` shows that the bound of C69 is reached up to its factor 3 for every number of verifications.

**C111** (`ModelElectron.v`) covers `build-test/electron` and the derived traits of the error types.  The memory, the views and the laws of the allocator are those of C75; `decode` is `TextDecoder.decode`, of which it is only used that it knows characters below 128.

**C112** (`SpecLeak.v`) writes out what somebody computes who learned the seed of one call: `key_points` from an issuance, `stolen_tag` and `presents` from a presentation; `thief_bytes` works on bytes.  They use only the stream, what the call gave out, and public values.  `Issuer::issue` and `User::show` fork the transcript without committing a witness, unlike the proofs (C63), so the stream alone determines the nonce and the blindings.  It is used that `g` is the basepoint, as in all parameters the library finds (C44).

**C113** (`ModelLeft.v`, `SpecSequence.v`) is about the argument `transcript: &mut Transcript` of the proof functions after the call.  Merlin's `challenge_bytes` changes the transcript as well; that it was called, with which label and length, is recorded as one more entry under a label that `commit_bytes` is never given in `/repo`.  `make_all` and `check_all` are a caller that uses one transcript for several proofs; there is none in `/repo`.  `begun` takes the blinding from the stream as C63 does.

**C114** (`SpecTrapdoor.v`) is about parameters of which somebody knows `t` with `h = t g`.  The model says nothing about how hard it is to find `t` for given parameters; the theorems say what follows from having it, and that two openings of one commitment give it.  `C114_chosen_refuted` shows the stream with which `hunt_and_peck` finds such parameters: that of a random number generator passed by a Rust caller, not one that comes from a seed of the C functions.  The entry's opening must be known as well; the roster's keeper and the entry's maker have it.

**C115** (`SpecBuilds.v`, `BuildFacts.v`) is about two builds `E` and `E'`.  `same_crates E E' f` says that `f` takes each point to the same point as the other build holds it, and that merlin, ChaCha and SHA-512 give the same bytes; nothing relates `debug_build` or `usize_bits` of the two.  That dalek's backends do agree is an assumption about that crate, as the rest of `Ext` is.  `BuildFacts.v` shows for each function of the model that it commutes with `f`.

**C116** (`SpecBlind.v`, `PropertiesBlind.v`) joins the two proofs of blind issuance.  The code has the proofs, the messages and ElGamal, but no function that issues blindly: `User::blind_request` is `unimplemented!()` and the rest is in comments (signal-credential/src/issuer.rs:186-360, user.rs:145-255).  `SpecBlind.v` therefore defines what the comments say a user does with an answer (`obtained`: keep `P`, decrypt the rest), and nothing else of the comments; in particular not the commented issuer, which puts the two halves of an encryption in each other's places.

**C117** (`SpecSearch.v`, `PropertiesSearch.v`) is why the opening is to be kept from the server.  `strings n` lists the numbers of `n` digits; `search` runs `roster_open`, as the attacker would.  The cost is the number of trials; the time of one trial is the subject of C94.

**C118** (`SpecTheft.v`, `PropertiesTheft.v`) is why issuances must travel encrypted, of which FFI.md says nothing.  `number_in` reads the number off the bytes with no help from the model.  That the user's bytes and those of the reader are the same means that nothing that happens later, whatever the issuer looks at, can tell them apart; for the owner's own entries only the opening does.

## 4. Trusted base

* Coq's kernel (8.16.1), including its `vm_compute`.  That is used in examples, in the witnesses
  of some refutations, in the primality certificate of C57 and for a few closed facts about concrete
  numbers.  `coqchk` rechecks everything without the virtual machine.
* What `Print Assumptions` lists.  For every theorem in `MANIFEST.json` it prints "Closed under the
  global context": no axiom is used.  `coqchk` also lists the seven constants
  `Coq.ssr.ssrunder.Under_rel.*` of the standard library's module `ssrunder`, which the library loads;
  no theorem depends on them.
* The reading of the source, cited line by line in the model files.
* What section 1 says of external crates: `ExtLaws` (hypothesis of the theorems, met by `Toy.v`), the
  scalar model, bincode, JSON.  `ExtLaws` does not assume hardness of any problem; where security
  rests on discrete logarithms or on the hash function, the theorem produces the relation or the
  collision.

## 5. Checking the theorems

`seeded/LOG.jsonl` records mutations of the model: the definition edited, the edit, the claim it
breaks, the proofs that failed, and what was tightened.  `failed` lists the scripts that no longer
compile; `dependent` lists the property theorems which then rest on a failed lemma.

`validation/vectors.py` compares the formulas of the model with output of the real library.  It
recomputes, in plain Python and without the code, the values of the test constants of
`ffi/src/c.rs:290-374` (parameters, issuer key pair, credential, user, presentation) from their
seed, and checks the three proofs in them with the equations of the model.  It is not part of any
proof.  The byte framing of the transcripts, which the model leaves to `Ext`, is not in `/repo`;
the script's framing was found by trying the variants until the proofs verified.
