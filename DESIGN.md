# Formal model of pasta-tokens: design and trusted base

The model lives in `rocq/theories` (Coq 8.16.1, standard library only). `/repo` is read as text;
nothing of it is executed. Each model definition cites the file and lines it transcribes.
`properties.jsonl` lists the properties, `MANIFEST.json` maps them to theorems,
`seeded/LOG.jsonl` records the wrong programs the theorems were tried against.

## 1. What is modelled

### Model (transcription of the code)

| File | Rust source |
|---|---|
| `Bytes.v` | `u8`, slices, `to_le_bytes`, `to_be_bytes`, `strip_prefix`, `split_once` |
| `Outcome.v` | `Result`, `PasetoError` with `Display`/`source`, `unwrap`, slice-split and underflow panics |
| `Base64.v` | `base64ct::Base64UrlUnpadded`, `paserk/mod.rs` `write_b64`/`read_b64` |
| `Pae.v` | `pae.rs` |
| `Prims.v` | signatures of the cryptographic crates; random generators |
| `Version.v` | header constants, lengths |
| `Key.v` | `key/mod.rs`, `key/convert.rs`, `purpose/public/v{3,4}.rs` key conversions, `Debug`, `PartialEq` |
| `Token.v` | `lib.rs`: codecs, footers, builders, token text |
| `Local.v` | `purpose/local/{mod,v3,v4}.rs` |
| `Public.v` | `purpose/public/{mod,v3,v4}.rs` |
| `Plaintext.v`, `KeyId.v`, `Wrap.v`, `Pbkw.v`, `Pke.v` | `paserk/{plaintext,id,wrap,pbkw,pke}.rs` |
| `Serde.v` | the hand-written `Serialize`/`Deserialize` implementations |
| `Json.v` | serde_json on structs with one string field (the footers and messages of the documentation and of the fuzz targets) |
| `Fmt.v` | the `Display` implementations over an arbitrary `core::fmt::Write` that may refuse pieces |
| `AnyRng.v` | all randomised operations over an arbitrary `RngCore`, which may panic; histories on it |
| `Fuzz.v` | `key/arbitrary.rs`, `lib.rs` `fuzzing`, the `fuzz_tests` modules, `fuzz/fuzz_targets/*.rs` |

### Specifications (written from the standards, not from the code)

| File | Content |
|---|---|
| `SpecBase64.v` | RFC 4648 base64url at bit level |
| `SpecPaseto.v` | PASETO v3/v4: PAE, key derivation, encryption, signed message |
| `SpecPaserk.v` | PASERK k3/k4: PIE, PBKW, PKE, ID |
| `SpecText.v` | grammars of token and PASERK texts |
| `SpecKey.v` | which byte strings encode which keys |
| `SpecJson.v` | RFC 8259 strings, UTF-8 (Unicode table 3-7) |
| `SpecJsonDoc.v` | RFC 8259 values and the documents of a struct with one string field |
| `SpecSep.v` | which messages each feature gives to hash and MAC |
| `SpecDetail.v` | decimal numerals (standard library printer), joined lists, exchange of ciphers |
| `SpecEffects.v` | feeding pieces to a sink, example sinks, logs of generator requests |
| `SpecSystem.v` | the texts a history makes public; hash functions with two inputs exchanged |
| `History.v` | arbitrary histories of operations, and which messages they authenticate or sign |
| `Observe.v` | uniform views of the model (kinds of text, parts of a payload) used in statements |

The specifications share with the model only `Bytes`, the primitive record, and the version and
key-type enumerations.

### Theorems

`Properties{Text,Local,Public,Key,Wrap,Misc,Fuzz,Extra,Forge,Detail,JsonDoc,Interop,Effects,System,Real,Curve}.v` contain the theorems, each closed by
`exact` of a lemma of the matching `Proofs*.v`, followed by `Print Assumptions` and by examples
meeting its hypotheses. `*Lemmas.v` hold auxiliary lemmas. `Samples.v` and `ToyAsym.v` define the
instances the examples are evaluated on; `ToyLemmas.v` proves that all laws hold of them.

### Executable instances and test vectors

`ConcreteSym.v` implements SHA-384, HMAC, HKDF, PBKDF2, AES-256, BLAKE2b, XChaCha20 and Argon2id in
Gallina; `ConcreteLemmas.v` proves `SymLaws` for it and `AesLemmas.v` that its AES-256 is injective
on blocks. `CurveAsym.v` implements Ed25519, X25519 and ECDSA/ECDH over P-384; `CurveLemmas.v` proves
`Sizes` for both together and `CurveWeak.v` what they do with the neutral element (C81).
`RealLaws.v` proves `Laws`, that is every assumption made anywhere about primitives, for this
instance. It rests on `Primes.v` (2^255 - 19 and the modulus and group order of P-384 are prime, by
Pocklington certificates), `Edwards.v` and `Weierstrass.v` (the group laws of both curve
shapes over any field), and `Field255.v`, `Field384.v`, `CurveGroup.v`, `CurveGroup384.v` (the
functions of `CurveAsym.v` compute in these groups).
`VectorCheck.v` transcribes the test procedures of `/repo/tests`, and `Vectors*.v` replay the
repository's test vectors on the model with these instances. The replays are tests evaluated by
the virtual machine while the files are compiled (a wrong result makes the build fail); they are
evidence for the transcription, not theorems. Vectors whose password hash is too expensive inside
Coq (10000 PBKDF2 rounds, 64 MiB of Argon2 memory) are checked in text form only; `VectorsPw.v` says
which. `VectorsFindings.v` runs the findings listed below on texts derived from the vectors.

### Modelling decisions

* `byte` (256 constructors) is `u8`; `list byte` is `&[u8]`, `Vec<u8>`, `GenericArray`, and also
  `&str` (all string operations in the crate are byte-wise on ASCII needles). The parsers of
  the model are therefore defined on a superset of UTF-8 strings.
* An operation returns `Ok a`, `Err e` or `Panic`. `Panic` covers `unwrap`/`expect` on `None`/`Err`,
  slice splits out of range, and `usize` underflow (which panics in debug builds and, in
  release builds, makes the following `split_at` panic: same outcome).
* Random generators are infinite byte tapes with a position; `fill_bytes(n)` reads the next `n`
  bytes. P-384 key generation is rejection sampling over the tape, with explicit fuel. C77 extends
  this to arbitrary stateful and panicking generators.
* Keys: a symmetric key is its bytes, a v4 secret key its 32-byte seed, a v3 secret key its 48
  scalar bytes, public keys their canonical compressed bytes; a boolean `valid_key` states the
  invariant of the Rust types.
* Crypto primitives are fields of a record `Prims`, so every theorem quantifies over *all*
  primitives satisfying what it names. `Sizes` (with `SymLaws` for the symmetric part) states
  output lengths and formats. `Laws` adds `EdLaws` and `P384Laws`: sign/verify correctness,
  Diffie-Hellman commutation, canonical parsing of points. All are hypotheses of the theorem, never
  axioms. All of them are proved for the executable instance `Real` (C82) and for a toy instance
  that is fast enough for the examples.
* Message and footer codecs are parameters; `Json.v` is one instance.
* PAE lengths wrap modulo 2^64 as in `as u64` / `sum` (release); theorems state the bound needed,
  which every Rust slice satisfies.
* Versions, purposes and key types are enumerations, and the type parameters of the Rust API
  become arguments. What the Rust type checker excludes (using a v3 key for a v4 token) is
  expressible in the model; the theorems about mixing versions and kinds cover it.
* `Clone` and moves are identities.

### Not modelled

* constant-time behaviour, zeroization, memory safety, performance, stack/heap exhaustion;
* feature-flag combinations (all features on);
* serde_json beyond what `Json.v` states (recursion limit, numbers out of range, the exact error
  texts), PEM parsing (opaque partial functions), operating-system randomness;
* the derived `Debug` of `PasetoError` and of the purpose markers (tokens have none), and `benches/`;
* cryptographic hardness: security statements are reductions ending in an explicit collision,
  forgery or key-derivation collision.

## 2. Properties and how they are proved

| Id | Approach |
|---|---|
| C01 | decoder for PAE; injectivity by induction on the piece lists |
| C02 | model `pae` over fragmented pieces = `SpecPaseto.PAE` of concatenated pieces |
| C03, C04 | 3-byte/4-char induction; equality with the bit-level RFC 4648 spec; decode = inverse image of encode |
| C05 | induction on 48-byte chunks |
| C06 | length arithmetic + C04 |
| C07, C08, C09 | characterisation of parse by prefix/`split_once`, alphabet has no dot |
| C10 | finite case analysis on headers |
| C11, C12 | case analysis of parsers |
| C13 | by computation of the footer codecs |
| C14, C22, C37, C41, C46 | composition of display/parse round-trip, xor involution, laws of primitives |
| C15, C23, C34, C38, C42, C47 | refinement equations against `SpecPaseto.v`/`SpecPaserk.v` |
| C16, C24, C39 | if-and-only-if against the same specs |
| C17 | two decoders, same non-`Ok` result |
| C18, C25, C35, C40, C45, C49 | reduction to an explicit collision through injectivity of the MAC/hash input |
| C19, C26, C43, C48 | exact panic condition + `_refuted` witness |
| C20, C21, C54 | state-passing generator, induction over histories |
| C27-C33, C36 | codec reasoning, lexicographic order |
| C44 | witness + normal-form theorem |
| C50, C51, C53 | equational |
| C52, C67 | association-list lookup, C67 with the JSON codec |
| C55 | AES-CTR with 64- vs 128-bit counter |
| C57, C60 | header prefix analysis; congruence in the primitives |
| C58 | exact condition |
| C59 | explicit second signature (r, n - s); functional determination of tags |
| C61 | compact points through the plaintext parser |
| C62 | alphabets of header and base64 |
| C63 | equality of tags, case split on keys and messages |
| C64, C65 | composition of the round-trip theorems along the harness code |
| C66 | scanner invariants against the RFC grammar; minimality of the writer by induction on the token |
| C73 | both directions against the RFC grammar: fuel induction with the open brackets, mutual induction on values with a fuel bound of three steps per byte |
| C68, C69, C70 | decidability of "was authenticated"; injectivity of the authenticated message; every event of a history comes from one of its actions |
| C56, C71 | computation; C12 for the messages of serde |
| C72 | the tag computation is convertible under exchange of the cipher |
| C74 | involution of the cipher, exact length splits, C29 for key encodings |
| C75 | explicit cipher: the keystream xored into place, looked up by counter block for AES |
| C76 | the same pieces for every sink, induction over the chunks |
| C77 | the bytes the generator delivered, as a tape; induction over the history |
| C78 | C68-C70 composed with C77 and the exact languages of the parsers (C08, C37, C44) |
| C79 | explicit hash with two inputs exchanged, through C34 |
| C80 | instances at the executable primitives, whose sizes and formats are proved |
| C81 | congruences modulo 2^255 - 19: the neutral point stays neutral under the group operations, the ladder stays in the points of order two |
| C82 | group laws of Edwards and Weierstrass curves by polynomial identities, primality certificates, projective and Jacobian formulas as representations of group elements |

### Where the code deviates from the ideal property

Each is a theorem with an exact condition and a witness.

| Finding | Theorem family |
|---|---|
| `decrypt`/`verify` panic on payloads shorter than nonce+tag / signature, and `verify` (v3) on signatures with r or s out of range | C19, C26 |
| `encrypt`/`sign` panic when the footer cannot be encoded as JSON | C20 |
| a token with an empty footer segment (trailing dot) is accepted | C09 |
| `unwrap` of k4 password-wrapped keys panics on stored parameters Argon2 rejects | C43 |
| k4 password-wrapped texts ignore the upper half of the 64-bit memory field | C44 |
| `unseal` (k3) panics on an ephemeral key that is not a curve point | C48 |
| v3 encryption uses a 64-bit counter where the standard has 128 bits | C55 |
| v3.public signatures are malleable | C59 |
| k3.public accepts compact points, so texts are not unique | C61 |
| v4 public keys of small order are accepted: signatures and sealed keys under them protect nothing | C81 |

## 3. Trusted base

* The Coq 8.16.1 kernel, with its conversion by virtual machine (`vm_compute`) for examples and vectors.
  No axiom, no `Admitted`, no kernel check switched off.
* Every theorem of `Properties*.v` prints `Closed under the global context`: it uses no axiom, of the
  standard library or otherwise. (`coqchk -o` on the whole library lists constants of
  `Coq.ssr.ssrunder`, a standard-library file that gets loaded; no theorem depends on them.)
* The faithfulness of the transcription, including the behaviour of the dependency crates (base64ct,
  generic-array, ecdsa, p384, ed25519-dalek, argon2, ctr, chacha20, serde_json), whose sources are
  not available in the sandbox and are recalled from their documented versions in `Cargo.lock`.
* The specifications `Spec*.v`, which a reader should compare with the standards.

## 4. What a reader should know about strength

* The curve laws (`EdLaws`, `P384Laws`) are hypotheses of the theorems that use them, proved for
  the executable algorithms (C82); that the dependency crates compute the same functions is
  trusted, with the test vectors as evidence. The laws are used only for completeness: round trips of signing and sealing, reading back v4 secret keys, and
  that constructors give valid keys. Soundness statements (what is accepted, when it panics,
  what a tag binds, authenticity over histories) assume at most `Sizes`, so they hold of the
  executable primitives as well. C80 and C82 spell this out for the main ones.
* Unforgeability of MACs and signatures is not assumed. C68, C69 and C70 reduce authenticity over
  any history to it: whatever is accepted was issued, or there is a valid tag or signature on a
  message that was never authenticated with that secret. The history lists every operation
  that outputs a tag or signature; verification, which outputs one bit, is not listed.

## 5. How to read the mutation log

`seeded/LOG.jsonl` has one line per wrong program tried in a scratch copy.

* Lines without `campaign` are edits chosen by hand, with the claim they were meant to break. After a
  failure the failing proof is admitted in the scratch copy and the build goes on, so
  `theorems_failed` is every theorem that then rests on an admitted proof.
* Lines with `"campaign": "automatic"` are generated edits. The run stops at the first failing lemma
  (`first_failing`) on which some theorem depends; `theorems_failed` lists the theorems depending on
  it. Failing examples and lemmas no theorem uses do not count: they are admitted and the run goes
  on. Edits that are not well typed are not logged.
* "Caught" means that a proof no longer goes through. It does not by itself mean that every theorem
  listed became false: one that shares a lemma with a false one is listed too.
* A survivor is either tightened against (`attempt` 1 and 2) or explained as equivalent.
* The executable primitives (`ConcreteSym.v`, `CurveAsym.v`) and test vectors are left out of the
  scratch builds, so a vector never counts as catching an edit.
