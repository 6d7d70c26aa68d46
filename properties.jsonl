{"id": "C01", "title": "Pre-authentication encoding is unambiguous", "statement": "Two different lists of pieces never produce the same pre-authentication encoding, so no authenticated byte can be moved from one field (header, nonce, message, footer, implicit assertion) to its neighbour without changing what is MACed or signed.", "quantifier": "all pairs of lists of byte strings whose number of pieces and piece lengths fit in 64 bits", "why_tests_cant": "Injectivity is a statement about all pairs of inputs; a test can only compare finitely many pairs.", "anchors": ["src/pae.rs:pae", "src/pae.rs:write_piece"]}
{"id": "C02", "title": "Pre-authentication encoding is the PASETO PAE and ignores how a piece is fragmented", "statement": "The bytes that are fed to the MAC, hash or signature for a list of pieces are exactly PASETO's PAE (LE64 count, then LE64 length and content of each piece), whatever way each piece is handed over as sub-slices, and the length words have the spec's cleared top bit for every slice that can exist.", "quantifier": "all lists of pieces, all ways to split each piece in sub-slices", "why_tests_cant": "There are unboundedly many splittings; the repo's unit test tries three inputs.", "anchors": ["src/pae.rs:pae", "src/pae.rs:write_piece", "src/purpose/local/mod.rs:generic_digest", "src/purpose/public/v3.rs:digest", "src/purpose/public/v4.rs:preauth"]}
{"id": "C03", "title": "Unpadded base64url text round-trips every byte string", "statement": "Any byte string put in a token payload, token footer or PASERK body is recovered exactly by the corresponding parser, and the text is RFC 4648 base64url without padding.", "quantifier": "all byte strings", "why_tests_cant": "Correctness depends on the length modulo 3 and on every byte value; tests cover a handful of strings.", "anchors": ["src/lib.rs:SecuredToken Display/FromStr", "src/paserk/mod.rs:write_b64", "src/paserk/mod.rs:read_b64"]}
{"id": "C04", "title": "Base64 decoding is strict and canonical", "statement": "A base64 segment is accepted only if it is the encoding of the bytes it decodes to: no padding, no whitespace, no alphabet variants, no length 1 mod 4, no non-zero trailing bits. Hence two distinct segments never decode to the same bytes.", "quantifier": "all byte strings offered as base64 segments", "why_tests_cant": "Malleability of an encoding is a property of all pairs of texts.", "anchors": ["src/lib.rs:FromStr for SecuredToken", "src/paserk/mod.rs:read_b64"]}
{"id": "C05", "title": "Chunked PASERK writer equals one-shot encoding", "statement": "Printing any PASERK value emits exactly the base64url text of the full body, although it is written in 48-byte chunks through a 64-byte buffer, and never panics; the text has the standard length.", "quantifier": "all bodies of every length", "why_tests_cant": "Chunk boundary behaviour depends on the length; only five lengths are exercised by tests.", "anchors": ["src/paserk/mod.rs:write_b64"]}
{"id": "C06", "title": "Fixed-size PASERK reader accepts exactly the encodings of N bytes", "statement": "Reading an N-byte PASERK body from text succeeds exactly on the canonical encodings of N-byte strings and yields those bytes; every other text is rejected with the base64 error, without panicking.", "quantifier": "all texts, all sizes N", "why_tests_cant": "The set of rejected texts is infinite; the length pre-check, the decoder limit and the post-check interact.", "anchors": ["src/paserk/mod.rs:read_b64"]}
{"id": "C07", "title": "Printed tokens parse back to the same token", "statement": "Printing a secured token and parsing the text with the same version, purpose, footer type and encoding gives back the same payload, the same raw footer bytes and the decoded footer; nothing is lost or added, with and without a footer.", "quantifier": "all payloads, all footers whose decoder inverts its encoder, both versions, both purposes, all encoding suffixes", "why_tests_cant": "Round-tripping is a claim on all tokens.", "anchors": ["src/lib.rs:SecuredToken Display", "src/lib.rs:SecuredToken FromStr"]}
{"id": "C08", "title": "Exact language accepted by the token parser", "statement": "A text is accepted exactly when it is version, encoding suffix, '.', purpose, '.', base64url payload and optionally '.' and base64url footer, with the footer decoder accepting the footer bytes (the empty string if absent). In that case the token holds exactly these bytes.", "quantifier": "all texts", "why_tests_cant": "An if-and-only-if on all strings; tests can only show some members and some non-members.", "anchors": ["src/lib.rs:SecuredToken FromStr"]}
{"id": "C09", "title": "Accepted token texts are not unique per token: only the empty-footer dot is redundant", "statement": "Ideal claim: two distinct accepted texts denote distinct tokens. The code also accepts a trailing '.' with an empty footer, so the ideal claim is false; it is true that this is the only redundancy: accepted texts that denote the same token differ at most by that final dot.", "quantifier": "all pairs of texts accepted by the same parser", "why_tests_cant": "Ruling out any other aliasing requires reasoning on all pairs of texts.", "anchors": ["src/lib.rs:SecuredToken FromStr"]}
{"id": "C10", "title": "Version, purpose and kind confusion is impossible at parse time", "statement": "No text is accepted by two parsers of different kinds: v3/v4 x local/public tokens and k3/k4 x {local, public, secret, lid, pid, sid, local-wrap.pie, secret-wrap.pie, local-pw, secret-pw, seal} PASERKs have pairwise disjoint languages, whatever the encoding suffix.", "quantifier": "all texts, all pairs of distinct parsers", "why_tests_cant": "Disjointness of 22+ infinite languages.", "anchors": ["src/lib.rs:FromStr for SecuredToken", "src/paserk/id.rs:FromStr", "src/paserk/plaintext.rs:FromStr", "src/paserk/wrap.rs:FromStr", "src/paserk/pbkw.rs:FromStr", "src/paserk/pke.rs:FromStr"]}
{"id": "C11", "title": "Parsing never panics", "statement": "Parsing any text as any token or PASERK type returns a value or an error; it never panics.", "quantifier": "all texts, all parsers (given a footer decoder that does not panic itself)", "why_tests_cant": "Absence of panics over all untrusted inputs; fuzzing samples.", "anchors": ["src/lib.rs:SecuredToken FromStr", "src/paserk/*.rs:FromStr"]}
{"id": "C12", "title": "Parse errors are classified by the first offending layer", "statement": "A token text with a wrong header gives InvalidToken; with right header but bad base64 gives Base64DecodeError; with right base64 but footer refused gives PayloadError; a PASERK text with a wrong header gives InvalidToken, with right header but bad body Base64DecodeError, and a plaintext PASERK with well-formed body that is not a key gives InvalidKey.", "quantifier": "all texts", "why_tests_cant": "Classification of every input.", "anchors": ["src/lib.rs:SecuredToken FromStr", "src/paserk/*.rs:FromStr"]}
{"id": "C13", "title": "Footer acceptance rules", "statement": "The unit footer type accepts only an absent/empty footer; the raw-bytes footer accepts anything and returns it unchanged; the JSON footer refuses an empty footer and otherwise returns exactly what the JSON decoder returns. The raw received bytes, not a re-encoding, are what is authenticated.", "quantifier": "all footer bytes", "why_tests_cant": "Quantifies over all footers and all decoders.", "anchors": ["src/lib.rs:Footer for ()", "src/lib.rs:Footer for Vec<u8>", "src/lib.rs:Footer for Json"]}
{"id": "C14", "title": "Local tokens round-trip end to end", "statement": "Encrypting any message with any footer and implicit assertion under any key and any randomness, printing, parsing and decrypting with the same key and assertion returns the message and footer unchanged, for v3 and v4.", "quantifier": "all messages, footers, assertions, keys, random streams, both versions; message codec that inverts on that message; within the cipher's length limit", "why_tests_cant": "Universal over keys, randomness and lengths.", "anchors": ["src/purpose/local/mod.rs:encrypt_with_assertions_and_rng", "src/purpose/local/mod.rs:decrypt_with_assertions", "src/lib.rs:Display/FromStr"]}
{"id": "C15", "title": "Local encryption computes the PASETO standard's algorithm", "statement": "The payload of an encrypted token is nonce || ciphertext || tag with key split, cipher and tag exactly as in the PASETO v3/v4 'Encrypt' specification, the nonce being the 32 bytes drawn from the generator (v3: as long as the low 64 bits of the block counter do not overflow, see C55).", "quantifier": "all messages, footers, assertions, keys, random streams", "why_tests_cant": "Functional equality to an independent specification on all inputs, not just published vectors.", "anchors": ["src/purpose/local/mod.rs:generic_encrypt", "src/purpose/local/mod.rs:generic_digest", "src/purpose/local/v3.rs", "src/purpose/local/v4.rs"]}
{"id": "C16", "title": "Local decryption accepts exactly what the standard accepts", "statement": "On a payload of at least nonce+tag length, decryption succeeds exactly when the trailing tag equals the standard's tag over nonce, ciphertext, footer and assertion and the message decoder accepts the plaintext; the outcome is the decoded message. Otherwise: CryptoError on tag mismatch, PayloadError on decoder refusal.", "quantifier": "all payloads, footers, assertions, keys", "why_tests_cant": "If-and-only-if over all payloads.", "anchors": ["src/purpose/local/mod.rs:decrypt_with_assertions", "src/purpose/local/mod.rs:generic_decrypt"]}
{"id": "C17", "title": "No plaintext is decoded before authentication", "statement": "If the tag is wrong the result is CryptoError whatever the message decoder is: the result does not depend on the decoder, so no unauthenticated plaintext byte ever reaches it. The same holds for signatures.", "quantifier": "all tokens with invalid tag/signature, all pairs of decoders", "why_tests_cant": "Non-interference between decoder behaviour and outcome on all bad tokens.", "anchors": ["src/purpose/local/mod.rs:generic_decrypt", "src/purpose/public/mod.rs:verify_with_assertions"]}
{"id": "C18", "title": "Any modification of a local token is detected unless the MAC collides", "statement": "If two tokens with the same tag are both accepted under the same key (and possibly different assertions, encodings), then either nonce, ciphertext, footer, assertion and encoding are all equal, or an explicit pair of distinct MAC inputs with equal tags is exhibited. So changing any bit of payload, footer or assertion is rejected unless the MAC collides on those two inputs.", "quantifier": "all pairs of accepted tokens and assertions", "why_tests_cant": "Quantifies over all forgeries.", "anchors": ["src/purpose/local/mod.rs:generic_decrypt", "src/purpose/local/mod.rs:generic_digest"]}
{"id": "C19", "title": "When decrypting an untrusted token panics", "statement": "Ideal claim: decrypting any parsed token returns a value or an error. False of the code: payloads shorter than nonce+tag panic; the exact panic condition is given.", "quantifier": "all parsed tokens, keys, assertions", "why_tests_cant": "Exact characterisation of the panic set over all inputs.", "anchors": ["src/purpose/local/mod.rs:decrypt_with_assertions"]}
{"id": "C20", "title": "Encryption failures and randomness consumption", "statement": "Encrypting returns an error only if the message encoder fails (PayloadError carrying the encoder's error); success or failure, exactly 32 random bytes are consumed; the token keeps the footer and the footer's encoding verbatim. A footer that cannot be serialised panics instead of returning PayloadError (JSON footers).", "quantifier": "all messages, codecs, keys, random streams", "why_tests_cant": "All codecs and all failure modes.", "anchors": ["src/purpose/local/mod.rs:encrypt_inner", "src/purpose/local/mod.rs:encrypt_with_assertions_and_rng", "src/lib.rs:Footer for Json"]}
{"id": "C21", "title": "Nonces of successive encryptions are disjoint pieces of the random stream", "statement": "For any sequence of encryptions from one generator, the k-th successful encryption's nonce is the k-th 32-byte block of the generator's output; no random byte is used twice, so nonces repeat only if the generator repeats blocks.", "quantifier": "all sequences of encryption requests (messages, footers, keys, versions), all random streams", "why_tests_cant": "Histories of arbitrary length.", "anchors": ["src/purpose/local/mod.rs:encrypt_with_assertions_and_rng"]}
{"id": "C22", "title": "Public tokens round-trip end to end", "statement": "Signing any message with any footer and assertion under any secret key, printing, parsing and verifying with the corresponding public key returns the message and footer, for v3 and v4.", "quantifier": "all messages, footers, assertions, secret keys, both versions", "why_tests_cant": "Universal over all inputs.", "anchors": ["src/purpose/public/mod.rs:sign_with_assertions", "src/purpose/public/mod.rs:verify_with_assertions", "src/lib.rs:Display/FromStr"]}
{"id": "C23", "title": "Signing computes the PASETO standard's algorithm", "statement": "The payload of a signed token is message || signature where the signature is Ed25519 over PAE(header, m, f, i) for v4 and ECDSA P-384/SHA-384 over PAE(compressed pk, header, m, f, i) for v3.", "quantifier": "all messages, footers, assertions, keys", "why_tests_cant": "Functional equality to an independent specification on all inputs.", "anchors": ["src/purpose/public/mod.rs:sign_with_assertions", "src/purpose/public/v3.rs:digest", "src/purpose/public/v4.rs:preauth"]}
{"id": "C24", "title": "Verification accepts exactly valid signatures over exactly these inputs", "statement": "On payloads at least one signature long (and, for v3, a well-formed signature), verification succeeds exactly if the standard's signature check passes on the message, footer and assertion and the decoder accepts the message; otherwise CryptoError, respectively PayloadError.", "quantifier": "all payloads, footers, assertions, public keys", "why_tests_cant": "If-and-only-if over all inputs.", "anchors": ["src/purpose/public/mod.rs:verify_with_assertions", "src/purpose/public/v3.rs:verify", "src/purpose/public/v4.rs:verify"]}
{"id": "C25", "title": "The signed bytes determine message, footer, assertion, encoding (and v3 key)", "statement": "If two sign/verify calls process the same signed byte string then message, footer, implicit assertion and encoding are the same, and for v3 the public key as well. A valid signature can thus not be transplanted to other contents, other footer, other assertion or, in v3, another key, without a signature valid for two different byte strings.", "quantifier": "all pairs of calls", "why_tests_cant": "Injectivity over all pairs.", "anchors": ["src/purpose/public/v3.rs:digest", "src/purpose/public/v4.rs:preauth"]}
{"id": "C26", "title": "When verifying an untrusted token panics", "statement": "Ideal claim: verifying any parsed token returns a value or an error. False: payloads shorter than a signature panic, and v3 panics when a signature half is zero or not below the group order; exact panic condition is given.", "quantifier": "all parsed tokens, keys, assertions", "why_tests_cant": "Exact characterisation of the panic set.", "anchors": ["src/purpose/public/mod.rs:verify_with_assertions", "src/purpose/public/v3.rs:verify"]}
{"id": "C27", "title": "The short entry points are the general ones with an empty assertion", "statement": "encrypt/decrypt/sign/verify without assertions behave as the assertion variants with an empty assertion; so a token made with a non-empty assertion is not accepted without it unless the MAC/signature collides.", "quantifier": "all tokens, keys, assertions", "why_tests_cant": "All assertions.", "anchors": ["src/purpose/local/mod.rs:encrypt", "src/purpose/local/mod.rs:decrypt", "src/purpose/public/mod.rs:sign", "src/purpose/public/mod.rs:verify"]}
{"id": "C28", "title": "Custom encodings cannot be transmuted", "statement": "Tokens carrying one encoding suffix are never parsed as tokens of another suffix or another version, and the authenticated header contains the suffix so that payload and signature cannot be moved between encodings.", "quantifier": "all pairs of suffixes and all texts", "why_tests_cant": "All suffixes and texts.", "anchors": ["src/lib.rs:Payload::SUFFIX", "src/purpose/local/mod.rs:generic_digest"]}
{"id": "C29", "title": "Keys round-trip through their bytes and invalid bytes are rejected", "statement": "For all six (version, key type) combinations: serialising a key gives the fixed length, deserialising these bytes gives the same key; every constructor accepts only its documented lengths/valid encodings and otherwise returns InvalidKey without panicking, and produces a key satisfying the type's validity invariant.", "quantifier": "all keys, all byte strings", "why_tests_cant": "All byte strings.", "anchors": ["src/key/convert.rs", "src/purpose/public/v3.rs", "src/purpose/public/v4.rs", "src/purpose/local/mod.rs"]}
{"id": "C30", "title": "Key equality is an equivalence and is equality of the serialised key", "statement": "Key equality is reflexive, symmetric and transitive, coincides with equality of the serialised bytes and of the plaintext PASERK text, and equal keys behave identically in every operation.", "quantifier": "all pairs/triples of valid keys", "why_tests_cant": "Equivalence laws over all keys.", "anchors": ["src/key/mod.rs:PartialEq for Key"]}
{"id": "C31", "title": "Debug output of keys leaks nothing", "statement": "The Debug text of a key is a constant, independent of the key (unless the fuzzing_repro cfg is on).", "quantifier": "all pairs of keys", "why_tests_cant": "Non-interference over all keys.", "anchors": ["src/key/mod.rs:Debug for Key"]}
{"id": "C32", "title": "Plaintext PASERK keys round-trip and parse strictly", "statement": "Printing a plaintext key and parsing gives the same key; a text is accepted exactly if it is the header and the canonical base64url of exactly KeyLen bytes forming a valid key; for all types but k3.public accepted texts are exactly the printed ones.", "quantifier": "all keys, all texts, six key kinds", "why_tests_cant": "All keys and all texts.", "anchors": ["src/paserk/plaintext.rs:Display", "src/paserk/plaintext.rs:FromStr"]}
{"id": "C33", "title": "Key ids round-trip as text", "statement": "Printing a key id and parsing it gives the same id, and a text is accepted exactly if it is the header and the canonical base64url of 33 bytes.", "quantifier": "all key ids, all texts, six id kinds", "why_tests_cant": "All texts.", "anchors": ["src/paserk/id.rs:Display", "src/paserk/id.rs:FromStr"]}
{"id": "C34", "title": "Key id derivation follows the PASERK standard and never panics", "statement": "The id of a key is the first 33 bytes of SHA-384 (v3) / the 33-byte BLAKE2b (v4) of id header followed by the plaintext PASERK of the key; the derivation never panics on its fixed buffers.", "quantifier": "all keys, six kinds", "why_tests_cant": "Buffer sizes and hash input for every key.", "anchors": ["src/paserk/id.rs:From<&Key>/to_id"]}
{"id": "C35", "title": "Key ids identify keys", "statement": "The hashed strings of two keys (of any version or type) are equal only if version, type and key are equal; so equal ids of different keys are an explicit hash collision.", "quantifier": "all pairs of keys of all kinds", "why_tests_cant": "Injectivity over all pairs.", "anchors": ["src/paserk/id.rs:to_id"]}
{"id": "C36", "title": "Key id comparison and hashing laws", "statement": "Equality on ids is equality of the 33 bytes and of the printed text; ordering is a total order consistent with equality; equal ids feed equal data (length, then the 33 bytes) to the hasher and unequal ids unequal data.", "quantifier": "all ids", "why_tests_cant": "Order laws range over all triples.", "anchors": ["src/paserk/id.rs:Ord", "src/paserk/id.rs:Hash"]}
{"id": "C37", "title": "PIE wrapping round-trips", "statement": "Wrapping any local or secret key with any wrapping key and any randomness, printing, parsing and unwrapping with the same wrapping key gives the same key.", "quantifier": "all wrapped keys, wrapping keys, random streams, both versions", "why_tests_cant": "All keys and randomness.", "anchors": ["src/paserk/wrap.rs:wrap_pie_with_rng", "src/paserk/wrap.rs:unwrap_key"]}
{"id": "C38", "title": "PIE wrapping implements the PASERK standard", "statement": "The printed form is the header and base64url of tag || nonce || ciphertext, each as in the PASERK PIE specification; unwrapping accepts exactly if the standard's tag matches and the decrypted bytes are a valid key, otherwise CryptoError respectively InvalidKey.", "quantifier": "all keys, randomness and all texts", "why_tests_cant": "If-and-only-if with an independent specification.", "anchors": ["src/paserk/wrap.rs"]}
{"id": "C39", "title": "PIE unwrapping of untrusted text never panics", "statement": "Parsing and unwrapping any text with any wrapping key returns a key or an error.", "quantifier": "all texts, all wrapping keys, both versions and both key types", "why_tests_cant": "Absence of panics on all inputs.", "anchors": ["src/paserk/wrap.rs:FromStr", "src/paserk/wrap.rs:unwrap_key"]}
{"id": "C40", "title": "A wrapped key cannot be altered or relabelled", "statement": "If two wrapped keys (possibly of different type) with the same tag are accepted under one wrapping key, they have the same type, nonce and ciphertext or give an explicit MAC collision.", "quantifier": "all pairs of wrapped keys", "why_tests_cant": "All forgeries.", "anchors": ["src/paserk/wrap.rs:unwrap_key"]}
{"id": "C41", "title": "Password wrapping round-trips and preserves settings", "statement": "Password-wrapping any local or secret key with any password, valid settings and randomness, printing, parsing and unwrapping with the same password gives the same key; settings read from the parsed value are those used for wrapping; without explicit settings they are 100000 iterations (k3) or 64 MiB, 2 passes, 1 lane (k4).", "quantifier": "all keys, passwords, valid settings, random streams", "why_tests_cant": "All inputs.", "anchors": ["src/paserk/pbkw.rs:pw_wrap_with_settings_and_rng", "src/paserk/pbkw.rs:unwrap_key", "src/paserk/pbkw.rs:settings"]}
{"id": "C42", "title": "Password wrapping implements the PASERK standard", "statement": "The printed form is header and base64url of salt || parameters || nonce || ciphertext || tag computed as in the PASERK PBKW specification; unwrapping accepts exactly if the tag matches and the plaintext is a valid key.", "quantifier": "all inputs", "why_tests_cant": "If-and-only-if with independent specification.", "anchors": ["src/paserk/pbkw.rs"]}
{"id": "C43", "title": "When unwrapping a password-wrapped key panics", "statement": "Ideal claim: unwrapping any parsed password-wrapped key returns a key or an error. False for k4: attacker-chosen Argon2 parameters outside the valid range panic; the exact set is given. For k3 the claim holds.", "quantifier": "all texts, all passwords", "why_tests_cant": "Exact panic set over all inputs.", "anchors": ["src/paserk/pbkw.rs:kdf", "src/paserk/pbkw.rs:unwrap_key"]}
{"id": "C44", "title": "k4 password-wrapped texts are malleable in four ignored bytes, and nowhere else", "statement": "Ideal claim: distinct accepted texts are distinct wrapped keys (parse then print is identity). False for k4: the high half of the 64-bit memory cost is ignored when parsing and zeroed when printing; it is the only redundancy. For k3 the claim holds.", "quantifier": "all texts", "why_tests_cant": "All pairs of texts.", "anchors": ["src/paserk/pbkw.rs:decode_state", "src/paserk/pbkw.rs:encode_state"]}
{"id": "C45", "title": "A password-wrapped key cannot be altered or relabelled", "statement": "If two password-wrapped keys (possibly of different type) whose derived authentication key and tag agree are accepted, then type, salt, parameters, nonce and ciphertext agree or an explicit MAC collision is given: parameters cannot be downgraded.", "quantifier": "all pairs", "why_tests_cant": "All forgeries.", "anchors": ["src/paserk/pbkw.rs:unwrap_key"]}
{"id": "C46", "title": "Sealing round-trips", "statement": "Sealing any local key to any public key with any randomness, printing, parsing and unsealing with the matching secret key gives the same key.", "quantifier": "all local keys, key pairs and random streams, both versions", "why_tests_cant": "All inputs.", "anchors": ["src/paserk/pke.rs:seal", "src/paserk/pke.rs:unseal"]}
{"id": "C47", "title": "Sealing implements the PASERK standard", "statement": "The printed form is header and base64url of tag || ephemeral public key || ciphertext as in the PASERK PKE specification; unsealing accepts exactly if the tag matches.", "quantifier": "all inputs", "why_tests_cant": "If-and-only-if with independent specification.", "anchors": ["src/paserk/pke.rs"]}
{"id": "C48", "title": "When unsealing untrusted text panics", "statement": "Ideal claim: unsealing any parsed sealed key returns a key or an error. False for k3: an ephemeral key that is not a valid curve point panics (before any authentication); exact condition given. For k4 the claim holds.", "quantifier": "all texts, all secret keys", "why_tests_cant": "Exact panic set over all inputs.", "anchors": ["src/paserk/pke.rs:unseal"]}
{"id": "C49", "title": "A sealed key cannot be altered", "statement": "If two sealed keys with the same ephemeral key and tag are accepted under one secret key their ciphertexts agree or an explicit MAC collision is given.", "quantifier": "all pairs of sealed keys", "why_tests_cant": "All forgeries.", "anchors": ["src/paserk/pke.rs:unseal"]}
{"id": "C50", "title": "Serde representation is the text representation", "statement": "Serialising any token/PASERK yields the string Display yields; deserialising a string succeeds exactly if FromStr does, with the same value; deserialising a non-string fails with a message naming the type found and the expected header. Hence a serde round-trip is identity on printed values.", "quantifier": "all values and all serde inputs", "why_tests_cant": "All values.", "anchors": ["src/lib.rs:serde impls", "src/paserk/*.rs:serde impls"]}
{"id": "C51", "title": "Builder methods change only what they name", "statement": "Setting a footer changes the footer and nothing else; setting an encoding changes the encoding and nothing else; the two commute; a new builder holds the message, empty footer and default encoding.", "quantifier": "all builders, footers, encodings", "why_tests_cant": "All values (frame property).", "anchors": ["src/lib.rs:TokenBuilder::with_footer", "src/lib.rs:TokenBuilder::with_encoding", "src/lib.rs:TokenBuilder::new"]}
{"id": "C52", "title": "Key rotation by key id in the footer works end to end", "statement": "With a key id in the footer (documented pattern), parsing a token exposes the id before verification; looking it up in a key set containing the encrypting key's id yields a key that decrypts the token, unless two keys of the set share an id (explicit hash collision).", "quantifier": "all key sets, messages, randomness", "why_tests_cant": "All key sets and tokens.", "anchors": ["src/lib.rs:unverified_footer", "src/paserk/id.rs", "README.md"]}
{"id": "C53", "title": "Printed sizes are fixed", "statement": "Every printed PASERK has the length determined by its kind, every token text the length determined by message, footer and suffix lengths.", "quantifier": "all values", "why_tests_cant": "All values.", "anchors": ["src/paserk/*.rs:Display", "src/lib.rs:Display"]}
{"id": "C54", "title": "Randomness of every operation: exact amount and order", "statement": "Key generation, encryption, PIE wrap, password wrap and k4 seal draw a fixed number of bytes from the supplied generator, in order, and the drawn bytes appear where specified (nonce, salt, key); over any history of operations the draws are disjoint.", "quantifier": "all histories of operations, all random streams", "why_tests_cant": "Histories of arbitrary length.", "anchors": ["src/key/convert.rs:new_random", "src/purpose/local/mod.rs", "src/paserk/wrap.rs", "src/paserk/pbkw.rs", "src/paserk/pke.rs"]}
{"id": "C55", "title": "v3 stream cipher counter", "statement": "Ideal claim: v3 ciphertexts are AES-256-CTR with a 128-bit counter as the standard prescribes. The code uses a 64-bit counter; the keystreams agree exactly as long as the low half of the IV plus the number of blocks does not overflow 64 bits; beyond that, whole-block messages are encrypted differently, so the token is the standard's exactly if there is no overflow.", "quantifier": "all keys, IVs and lengths", "why_tests_cant": "The deviating IVs have probability about 2^-60 per token; no test would hit them.", "anchors": ["src/purpose/local/v3.rs:Ctr64BE"]}
{"id": "C56", "title": "Error values display and chain", "statement": "Each error displays a fixed message, only PayloadError carries a source, namely the codec's error, and its text contains it. The five texts, and the text read when deserialising a malformed key id, wrapped or sealed key, are exactly the documented ones.", "quantifier": "all errors", "why_tests_cant": "All codec errors.", "anchors": ["src/lib.rs:PasetoError"]}
{"id": "C57", "title": "Tokens of one key type cannot be decrypted by an API misuse across versions", "statement": "The authenticated data of v3/v4, local/public tokens always start with different header pieces, so the same bytes are never authenticated for two (version, purpose) pairs, even when raw key bytes are reused across versions.", "quantifier": "all inputs of all four token kinds", "why_tests_cant": "All pairs of inputs.", "anchors": ["src/purpose/local/mod.rs:generic_digest", "src/purpose/public/v3.rs:digest", "src/purpose/public/v4.rs:preauth"]}
{"id": "C58", "title": "v4.local length limit", "statement": "Encrypting a v4.local message panics exactly when the message exceeds the XChaCha20 keystream limit of 2^32-1 blocks (about 256 GiB); v3.local has no reachable limit.", "quantifier": "all message lengths", "why_tests_cant": "No test encrypts 256 GiB.", "anchors": ["src/purpose/local/mod.rs:generic_encrypt", "src/purpose/local/v4.rs"]}
{"id": "C59", "title": "Which parts of an authenticated value are unique", "statement": "Ideal claim: an accepted v3.public token cannot be turned into another accepted text for the same message without the key. False: ECDSA verification accepts (r, n-s) with (r, s), so every accepted token has a second accepted text with the same message, footer and assertion. For local tokens, PIE, password-wrapped and sealed keys the tag is unique: two accepted values that agree in the rest are equal.", "quantifier": "all tokens, keys, messages, footers, assertions", "why_tests_cant": "The second text never comes out of the signer; a test would have to construct it for every token.", "anchors": ["src/purpose/public/v3.rs:verify", "src/purpose/public/mod.rs:verify_with_assertions", "src/purpose/local/mod.rs:generic_decrypt", "src/paserk/wrap.rs", "src/paserk/pbkw.rs", "src/paserk/pke.rs"]}
{"id": "C60", "title": "Features never share hash or MAC inputs", "statement": "Local tokens, public tokens, PIE wrapping, password wrapping, sealing and key ids feed pairwise disjoint sets of messages to the MAC and the hash, and each operation depends on the primitives only at inputs of its own feature: replacing the primitives elsewhere changes no result. Within the wrapping features a MACed message carries the header of exactly one PASERK kind.", "quantifier": "all pairs of features, all inputs, all families of primitives", "why_tests_cant": "Quantifies over pairs of families of primitives; tests run with one family.", "anchors": ["src/purpose/local/mod.rs", "src/purpose/public/v3.rs", "src/paserk/wrap.rs", "src/paserk/pbkw.rs", "src/paserk/pke.rs", "src/paserk/id.rs"]}
{"id": "C61", "title": "k3.public texts", "statement": "Ideal claim: a k3 public key has exactly one accepted PASERK text. False: SEC1 compact points (tag 05) of 49 bytes are accepted as well; the key is printed in compressed form, and its identifier is computed from the printed form, so both texts have the same id.", "quantifier": "all compact points the curve library accepts", "why_tests_cant": "No test vector contains a compact point.", "anchors": ["src/key/convert.rs", "src/paserk/plaintext.rs:FromStr", "src/paserk/id.rs"]}
{"id": "C62", "title": "Everything printed is URL safe", "statement": "Every printed or accepted PASERK text, and every printed or accepted token whose encoding suffix is URL safe, consists of the characters A-Z a-z 0-9 - _ and dots only.", "quantifier": "all values, all accepted texts", "why_tests_cant": "All values and all accepted texts.", "anchors": ["src/lib.rs:Display", "src/lib.rs:FromStr", "src/paserk/*.rs"]}
{"id": "C63", "title": "Tokens and wrapped keys commit to the key", "statement": "If one and the same local token, PIE-wrapped key, password-wrapped key or sealed key is accepted under two keys (and assertions, key types), passwords or recipients, then they are equal or there is an explicit collision of the key derivation or of the MAC.", "quantifier": "all tokens and wrapped keys, all pairs of keys, passwords, recipients", "why_tests_cant": "Tests try one wrong key; the claim is about all pairs.", "anchors": ["src/purpose/local/mod.rs:generic_decrypt", "src/paserk/wrap.rs:unwrap", "src/paserk/pbkw.rs:unwrap", "src/paserk/pke.rs:unseal"]}
{"id": "C64", "title": "The fuzz targets never fail", "statement": "The fuzz targets of the repository for local and public tokens, key wrapping, sealing and parsing run to completion without panic or failed assertion on every input of the shape the fuzzer generates (v3 signing: whenever ECDSA yields a signature). Independently of any law of the primitives, a target only passes if the round trip it tests took place.", "quantifier": "all fuzzer inputs", "why_tests_cant": "A fuzzer runs finitely many inputs; this is every input.", "anchors": ["fuzz/fuzz_targets/*.rs", "src/lib.rs:FuzzInput", "src/paserk/wrap.rs:fuzz_tests", "src/paserk/pke.rs:fuzz_tests"]}
{"id": "C65", "title": "Keys made for fuzzing are valid and exhaustive", "statement": "The Arbitrary implementation for keys takes exactly the next 32 (48) bytes of input, zero-filled, yields only valid keys, rejects exactly the 48-byte strings that are not scalars, and reaches every valid key.", "quantifier": "all inputs, all valid keys", "why_tests_cant": "All inputs.", "anchors": ["src/key/arbitrary.rs", "src/key/convert.rs"]}
{"id": "C66", "title": "JSON footers and messages of the examples and fuzz targets", "statement": "The JSON string reader accepts exactly RFC 8259 strings whose value is UTF-8, with the value of the RFC; writing a one-field object yields a valid JSON text that reads back to the same value for every UTF-8 text; the string is written as the shortest token denoting it, and of several shortest ones (hexadecimal digits of either case) as the last in byte order, so the written bytes are determined by the RFC; nothing but UTF-8 is ever returned.", "quantifier": "all texts and byte strings", "why_tests_cant": "All Unicode texts, all byte strings.", "anchors": ["src/lib.rs:Json", "fuzz/fuzz_targets/*.rs"]}
{"id": "C67", "title": "The documented key rotation works with its actual JSON footer", "statement": "With the footer struct of the crate documentation the token carries {\"kid\":\"kN.pid....\"} (or .lid.); parsing the printed token yields the identifier before verification, looking it up in the key map gives a key with that id, and verification or decryption with it returns the original token unless two keys of the map collide under the id hash.", "quantifier": "all key maps, messages, keys, random streams", "why_tests_cant": "The doc test runs one key and one message.", "anchors": ["src/lib.rs:35-101", "src/paserk/id.rs:Serialize", "src/paserk/id.rs:Deserialize"]}
{"id": "C68", "title": "Every accepted local token was issued, or the MAC is forged", "statement": "After any history of encryptions, signatures, key wrappings, sealings and key generations sharing one generator, with any inputs and keys: a token accepted under a key is byte for byte (payload, footer, assertion, encoding) a token encrypted under that key in the history and yields the decoding of the bytes encoded there; otherwise its tag is a valid MAC on a message that no operation of the history authenticated from that key.", "quantifier": "all histories, all accepted tokens, all keys, generators and encodings", "why_tests_cant": "A claim about every interleaving of every operation and every adversarial token.", "anchors": ["src/purpose/local/mod.rs:encrypt_with_assertions_and_rng", "src/purpose/local/mod.rs:decrypt_with_assertions", "src/paserk/wrap.rs", "src/paserk/pbkw.rs"]}
{"id": "C69", "title": "Every accepted public token was signed, or the signature is forged", "statement": "After any history of use, a token accepted under the public key of a secret key carries message bytes, footer, assertion and encoding that were signed together with that secret key in the history; otherwise its signature is valid for a byte string the key never signed.", "quantifier": "all histories, all accepted tokens, all key pairs", "why_tests_cant": "A claim about every history and every adversarial token.", "anchors": ["src/purpose/public/mod.rs:sign_with_assertions", "src/purpose/public/mod.rs:verify_with_assertions"]}
{"id": "C70", "title": "Every accepted wrapped key was wrapped, or the MAC is forged", "statement": "After any history of use, every PIE-wrapped or password-wrapped key accepted under a wrapping key or password was produced with it in the history and unwraps to the key wrapped there; otherwise its tag is a valid MAC on a message never authenticated from that secret by any operation of the history.", "quantifier": "all histories, all accepted wrapped keys, wrapping keys and passwords", "why_tests_cant": "A claim about every history and every adversarial text.", "anchors": ["src/paserk/wrap.rs:wrap_pie", "src/paserk/wrap.rs:unwrap", "src/paserk/pbkw.rs:wrap", "src/paserk/pbkw.rs:unwrap"]}
{"id": "C71", "title": "Headers of JSON tokens and footer error messages", "statement": "JSON tokens print exactly the four registered headers and use serde_json's bytes unchanged; a footer where none is expected is refused with a message listing its bytes in decimal, a missing JSON footer with 'missing footer', and these are the errors parse returns.", "quantifier": "all tokens, payloads and footers", "why_tests_cant": "All footers.", "anchors": ["src/lib.rs:Json", "src/lib.rs:Footer for ()", "src/lib.rs:FromStr"]}
{"id": "C72", "title": "The authentication verdict does not involve the cipher", "statement": "Whether a local token, PIE-wrapped key, password-wrapped key or sealed key is refused as unauthentic is the same whatever function stands in place of the cipher, so nothing is deciphered before the tag is checked.", "quantifier": "all inputs, all pairs of ciphers", "why_tests_cant": "Independence from a component is a claim about all possible behaviours of it.", "anchors": ["src/purpose/local/mod.rs:generic_decrypt", "src/paserk/wrap.rs:unwrap", "src/paserk/pbkw.rs:unwrap", "src/paserk/pke.rs:unseal"]}
{"id": "C73", "title": "The exact language of the JSON reader", "statement": "For a struct with one string field (message payloads, key-id footers) the reader accepts exactly the documents of the RFC 8259 grammar, surrounded by blanks, that are an object in which the field occurs once with a string of UTF-8 text, all other members being arbitrary well-formed values of any nesting; or an array of exactly one such string. The value read is the decoded string, and it is unique.", "quantifier": "all byte strings, field names, nesting depths", "why_tests_cant": "Equality of an infinite language with a grammar, including unbounded nesting and all escapes.", "anchors": ["src/lib.rs:Json", "src/lib.rs:PayloadEncoding for Json", "src/lib.rs:267-320"]}
{"id": "C74", "title": "What is accepted is exactly what the standards produce", "statement": "Decryption yields a message exactly for the payloads that PASETO encryption produces, for some nonce, from bytes decoding to it; verification exactly for bytes with a signature the standard accepts; unwrapping and unsealing yield a key exactly for the PASERK texts that wrapping or sealing an encoding of that key produces. Every text composed by the standard (any implementation's output) is read and opened to the value it was made from. Inside the range where the crate's cipher is the standard's (C55).", "quantifier": "all tokens, texts, keys, passwords, settings, nonces, messages, footers, assertions, encodings", "why_tests_cant": "Equality of two infinite sets; tests compare finitely many vectors.", "anchors": ["src/purpose/local/mod.rs:generic_decrypt", "src/purpose/public/mod.rs:verify_with_assertions", "src/lib.rs:FromStr", "src/paserk/wrap.rs:unwrap", "src/paserk/pbkw.rs:unwrap", "src/paserk/pke.rs:unseal"]}
{"id": "C75", "title": "Tokens and wrapped keys fit every content of the same length", "statement": "For each local token and each message whose encoding has the same length there is a cipher, all other primitives and all other inputs being equal, under which encrypting that message gives the same token; likewise for PIE-wrapped, password-wrapped and sealed keys and any other key of the type. So no output byte depends on the content except through the cipher.", "quantifier": "all messages, keys, footers, assertions, generators, encodings", "why_tests_cant": "A leak outside the cipher would be visible only for particular contents; this covers all of them.", "anchors": ["src/purpose/local/mod.rs:generic_encrypt", "src/paserk/wrap.rs:wrap_pie", "src/paserk/pbkw.rs:wrap", "src/paserk/pke.rs:seal"]}
{"id": "C76", "title": "Texts written into any sink", "statement": "Displaying a token, key id, plaintext key, wrapped or sealed key into any fmt::Write hands over pieces that do not depend on the sink and concatenate to the text, stops with an error at the first refusal, and never panics. A String receives exactly the text; a bounded buffer exactly the part that fits, with success reported exactly if all of it fits.", "quantifier": "all values, all sinks in all states", "why_tests_cant": "Tests display into Strings, which never refuse; all failure points of all sinks are covered here.", "anchors": ["src/lib.rs:449-469", "src/paserk/mod.rs:201-208", "src/paserk/id.rs:62-74", "src/paserk/plaintext.rs:22-29", "src/paserk/wrap.rs:334-346", "src/paserk/pbkw.rs:283-299", "src/paserk/pke.rs:446-453"]}
{"id": "C77", "title": "Any random generator may be used", "statement": "With any RngCore (any state, output depending on request sizes, panics at any call, caught or not) the results of a history of operations are those of the operations that completed, on some infinite sequence of random bytes, so the properties stated for such sequences hold for every generator. Each operation requests exactly its nonce, salt, ephemeral or key buffers in order and nothing else, and if the generator fails the operation yields nothing.", "quantifier": "all generators, states, histories, operations", "why_tests_cant": "Tests use the system generator or fixed bytes; failing and size-dependent generators are never exercised.", "anchors": ["src/purpose/local/mod.rs:encrypt_with_assertions_and_rng", "src/paserk/wrap.rs:wrap_pie_with_rng", "src/paserk/pbkw.rs:pw_wrap_with_settings_and_rng", "src/paserk/pke.rs:seal_with_rng", "src/key/convert.rs:new_random"]}
{"id": "C78", "title": "Every accepted text was published, or something is forged", "statement": "A system issues tokens and wrapped keys through any history of operations with any generator, and reads arbitrary texts. A text that is parsed and decrypted under a key is the printed text of a token issued under that key and assertion (at most a final dot added where there is no footer) and gives the message encoded there; an accepted public text has message, footer and encoding of a published one; an accepted PIE text is a published text; an accepted password-wrapped text reads as a published one; otherwise the text carries a MAC or signature on bytes never authenticated with that secret.", "quantifier": "all histories, generators, texts, keys, passwords, encodings, footers", "why_tests_cant": "End-to-end over all strings an adversary may send after any use of the library.", "anchors": ["src/lib.rs:FromStr", "src/lib.rs:449-469", "src/purpose/local/mod.rs:decrypt_with_assertions", "src/purpose/public/mod.rs:verify_with_assertions", "src/paserk/wrap.rs", "src/paserk/pbkw.rs"]}
{"id": "C79", "title": "Key ids in footers do not give the key away", "statement": "For every key id and every other valid key of the same version and type, exchanging two inputs of the hash function (all else equal) gives that other key the same id: the id depends on the key only through one hash value. PIE-wrapped and sealed keys, the other types marked SafeForFooter, are covered by C75.", "quantifier": "all versions, key types, pairs of keys", "why_tests_cant": "A leak beside the hash would show only for particular keys.", "anchors": ["src/paserk/id.rs:130-205", "src/paserk/mod.rs:198-199", "src/paserk/id.rs:207-211"]}
{"id": "C80", "title": "The main results hold of the actual algorithms without assumptions", "statement": "With the standard's actual algorithms (executable SHA-384, HMAC, HKDF, PBKDF2, AES-256, BLAKE2b, XChaCha20, Argon2id, Ed25519, X25519 and P-384): local tokens and wrapped symmetric keys are read back; AES-256 is injective on blocks, so v3 tokens of whole-block messages are the standard's exactly if the low counter half does not overflow; reading and opening an untrusted PIE-wrapped, k3 password-wrapped or k4 sealed key never panics; every accepted local token, public token or PIE text was issued in the history, or carries a MAC or signature on a string never authenticated with that secret.", "quantifier": "all keys, messages, footers, assertions, texts, random generators and histories", "why_tests_cant": "Tests run the real algorithms on a few inputs; a proof over abstract algorithms could rest on unsatisfiable assumptions.", "anchors": ["src/purpose/local/mod.rs:decrypt_with_assertions", "src/purpose/public/mod.rs:verify_with_assertions", "src/paserk/wrap.rs", "src/paserk/pbkw.rs", "src/paserk/pke.rs"]}
{"id": "C81", "title": "Weak v4 public keys are accepted", "statement": "The byte 1 followed by 31 zeros (the encoding of the neutral curve element) is accepted as a v4 public key by every constructor. Under it one fixed signature verifies for every message, footer, implicit assertion and encoding, and every key sealed to it can be opened from the sealed text alone with 32 zeros as shared secret. So the claims 'an accepted signature needs a secret key' and 'an opened sealed key needs a secret key' are false without a check of where public keys come from. Proved of the actual Ed25519 and X25519 algorithms.", "quantifier": "all messages, footers, assertions, encodings, footer types, keys and random streams", "why_tests_cant": "Test keys are generated; small-order keys have probability zero.", "anchors": ["src/key/convert.rs", "src/purpose/public/v4.rs:77-89", "src/paserk/pke.rs:305-369", "src/paserk/plaintext.rs"]}
{"id": "C82", "title": "The laws of the curves hold of the actual algorithms", "statement": "The executable Ed25519, X25519 and P-384 algorithms satisfy every law assumed of the primitives: public keys are accepted by their parsers, signatures verify under the signer's public key, both sides of a key exchange agree. So without assumptions: every signed token, printed and parsed, verifies under the signer's public key; every key sealed to a public key is opened by its secret key; valid keys of all types and versions are read back from bytes and PASERK text and from wrapping under a key or a password; the key constructors accept only valid keys; the wrapping, sealing and v4 signing fuzz targets never fail.", "quantifier": "all keys, messages, footers, assertions, encodings, passwords, settings and random streams", "why_tests_cant": "Tests sign and seal with a few keys; the group law, carries in the field arithmetic and the exceptional cases of the addition formulas are reached only by special inputs.", "anchors": ["src/purpose/public/mod.rs:sign_with_assertions", "src/purpose/public/mod.rs:verify_with_assertions", "src/paserk/pke.rs", "src/paserk/wrap.rs", "src/paserk/pbkw.rs", "src/key/convert.rs", "fuzz/fuzz_targets"]}
