{"id": "C01", "title": "Entropy survives the phrase round trip", "statement": "For every built-in language and every entropy of 16, 20, 24, 28 or 32 bytes, from_entropy succeeds, and from_phrase applied to the resulting phrase() succeeds and yields a mnemonic with exactly the same entropy() and the same phrase().", "quantifier": "all ten word lists, all 2^128..2^256 entropies of every legal length", "why_tests_cant": "The input space is 2^128 or larger and the checksum depends on SHA-256; a test can only sample a handful of vectors.", "anchors": ["bip0039/src/mnemonic/mod.rs:Mnemonic::from_entropy", "bip0039/src/mnemonic/mod.rs:Mnemonic::from_phrase", "bip0039/src/mnemonic/entropy.rs:encode_entropy_with", "bip0039/src/mnemonic/phrase.rs:decode_phrase_with"]}
{"id": "C02", "title": "Only the five legal entropy sizes are accepted", "statement": "from_entropy returns Ok exactly when the entropy has 16, 20, 24, 28 or 32 bytes; for any other length whose bit count fits a usize it returns Err(BadEntropyBitCount(8*len)) with the exact bit count.", "quantifier": "all byte strings of every length, all languages, debug and release builds, 32- and 64-bit usize", "why_tests_cant": "Infinitely many lengths; the multiplication len*8 wraps only for lengths no test allocates.", "anchors": ["bip0039/src/mnemonic/mod.rs:Count::from_key_size", "bip0039/src/mnemonic/entropy.rs:encode_entropy_with"]}
{"id": "C03", "title": "The phrase is the BIP-0039 encoding of the entropy", "statement": "The phrase returned by from_entropy is, for every legal entropy, the words obtained by cutting (entropy bits, most significant first, followed by the first ENT/32 bits of SHA-256(entropy)) into 11-bit groups and looking each group up in the word list, joined by single ASCII spaces; it has exactly 12/15/18/21/24 words.", "quantifier": "all legal entropies, all languages", "why_tests_cant": "The streaming accumulator must agree with the bit-string definition at every bit offset and value; vectors cover only a few.", "anchors": ["bip0039/src/mnemonic/entropy.rs:encode_entropy_with", "bip0039/src/mnemonic/bit_accumulator.rs:BitAccumulator"]}
{"id": "C04", "title": "Accepted phrases are canonical encodings", "statement": "If from_phrase (or from_normalized_phrase) accepts a phrase under a built-in language and yields a mnemonic m, then from_entropy(m.entropy()) succeeds and yields a mnemonic equal to m; in particular phrase() is a function of entropy() and no two accepted mnemonics share entropy but differ in phrase.", "quantifier": "all Unicode input strings, all ten languages", "why_tests_cant": "Ranges over every Unicode string; a decoder accepting a non-canonical phrase would be found only by luck.", "anchors": ["bip0039/src/mnemonic/phrase.rs:decode_phrase_with", "bip0039/src/mnemonic/phrase.rs:DecodeState::finish", "bip0039/src/mnemonic/mod.rs:Mnemonic::from_normalized_phrase"]}
{"id": "C05", "title": "Exact acceptance condition and error priority of phrase parsing", "statement": "from_normalized_phrase(s) returns BadWordCount(n) if the number n of whitespace-separated words is not 12/15/18/21/24; otherwise UnknownWord(w) for the first word w not in the list; otherwise InvalidChecksum if the last n/3 bits of the 11-bit index string differ from the first n/3 bits of SHA-256 of the preceding bits packed as bytes; otherwise Ok with exactly those bytes as entropy and the words joined by single spaces as phrase.", "quantifier": "all Unicode strings, all languages (built-in or user supplied)", "why_tests_cant": "Acceptance is a property of every string; tests check individual positives and negatives.", "anchors": ["bip0039/src/mnemonic/phrase.rs:decode_phrase_with", "bip0039/src/mnemonic/mod.rs:Count::from_phrase", "bip0039/src/error.rs:Error"]}
{"id": "C06", "title": "validate agrees with from_phrase", "statement": "For every language and every string, validate(s) is Ok exactly when from_phrase(s) is Ok, and when they fail they fail with the same error.", "quantifier": "all Unicode strings, all languages", "why_tests_cant": "Two code modes must agree on every input.", "anchors": ["bip0039/src/mnemonic/mod.rs:Mnemonic::validate", "bip0039/src/mnemonic/mod.rs:AnyMnemonic::validate", "bip0039/src/mnemonic/phrase.rs:DecodeMode"]}
{"id": "C07", "title": "Parsing only depends on the NFKD form and the word sequence", "statement": "from_phrase(s) equals from_phrase(nfkd(s)) and from_normalized_phrase(nfkd(s)) for every string s; and two strings whose NFKD forms have the same sequence of whitespace-separated words give identical results (value or error).", "quantifier": "all pairs of Unicode strings, all languages", "why_tests_cant": "Quantifies over all pairs of Unicode strings and all whitespace layouts.", "anchors": ["bip0039/src/mnemonic/mod.rs:normalize_utf8", "bip0039/src/mnemonic/mod.rs:Mnemonic::from_phrase", "bip0039/src/mnemonic/phrase.rs:decode_phrase_with"]}
{"id": "C08", "title": "phrase() is normalised", "statement": "For every mnemonic obtained from from_entropy, from_phrase or from_normalized_phrase under a built-in language, phrase() is NFKD-normalised, contains no whitespace other than single ASCII spaces between words, and consists of a legal number of word-list words.", "quantifier": "all mnemonics constructible through the public API, all ten languages", "why_tests_cant": "The claim is about every reachable value.", "anchors": ["bip0039/src/mnemonic/mod.rs:Mnemonic::phrase", "bip0039/src/mnemonic/entropy.rs:encode_entropy_with", "bip0039/src/mnemonic/phrase.rs:decode_phrase_with"]}
{"id": "C09", "title": "Re-parsing is idempotent", "statement": "For every mnemonic m accepted from any string under a built-in language, from_phrase(m.phrase()), from_normalized_phrase(m.phrase()) and validate(m.phrase()) succeed, and the first two return a mnemonic equal to m.", "quantifier": "all Unicode input strings, all ten languages", "why_tests_cant": "Ranges over every accepted string.", "anchors": ["bip0039/src/mnemonic/mod.rs:Mnemonic::from_phrase", "bip0039/src/mnemonic/mod.rs:Mnemonic::validate"]}
{"id": "C10", "title": "Compile-time and run-time language APIs agree", "statement": "For every built-in language L, AnyMnemonic::{from_entropy,from_phrase,from_normalized_phrase,validate,to_seed} with L's runtime handle return the same phrase, entropy, seed and errors as the corresponding Mnemonic<L> methods, and converting a Mnemonic<L> into AnyMnemonic preserves phrase, entropy and language.", "quantifier": "all inputs of every method, all ten languages", "why_tests_cant": "Two parallel APIs must agree on every input.", "anchors": ["bip0039/src/mnemonic/mod.rs:AnyMnemonic", "bip0039/src/mnemonic/mod.rs:From<Mnemonic<L>> for AnyMnemonic", "bip0039/src/language/mod.rs:BuiltInLanguage::as_any_language", "bip0039/src/language/mod.rs:AnyLanguage::of"]}
{"id": "C11", "title": "No input makes bip0039 panic", "statement": "from_entropy, from_phrase, from_normalized_phrase and validate never panic: no debug assertion fails, no shift or subtraction overflows, no array index is out of range and every word index handed to the word list is below 2048, for every input whose bit count fits a usize and even for user-supplied languages whose index_of returns arbitrary numbers.", "quantifier": "all byte strings and Unicode strings, all languages including contract-violating index_of functions, debug builds", "why_tests_cant": "Absence of panics over an infinite input space; fuzzing samples it.", "anchors": ["bip0039/src/mnemonic/bit_accumulator.rs:BitAccumulator::push_bits", "bip0039/src/mnemonic/bit_accumulator.rs:BitAccumulator::take_bits", "bip0039/src/mnemonic/phrase.rs:DecodeState::push_index", "bip0039/src/mnemonic/entropy.rs:encode_entropy_with", "bip0039/src/language/mod.rs:Language::word_of"]}
{"id": "C12", "title": "Distinct entropies give distinct phrases", "statement": "Under each built-in language, if two entropies of legal length produce the same phrase via from_entropy then they are equal.", "quantifier": "all pairs of legal entropies (also of different lengths), all ten languages", "why_tests_cant": "Ranges over pairs from a 2^256-sized set.", "anchors": ["bip0039/src/mnemonic/entropy.rs:encode_entropy_with"]}
{"id": "C13", "title": "The checksum admits exactly one phrase per entropy", "statement": "For a phrase of n known words (n legal), replacing only checksum bits (the low n/3 bits of the last word's index) turns an accepted phrase into one rejected with InvalidChecksum; for every choice of the first n-1 known words exactly 2^(11-n/3) of the 2048 possible last words are accepted.", "quantifier": "all word prefixes, all legal word counts, all languages meeting the Language contract", "why_tests_cant": "Counts over all prefixes: 2048^23 of them.", "anchors": ["bip0039/src/mnemonic/phrase.rs:DecodeState::finish", "bip0039/src/mnemonic/phrase.rs:DecodeState::push_index"]}
{"id": "C14", "title": "Seed derivation is the BIP-0039 PBKDF2 call", "statement": "to_seed(p) equals PBKDF2-HMAC-SHA512 with password = UTF-8 of phrase(), salt = UTF-8 of \"mnemonic\" followed by nfkd(p), 2048 iterations and 64 output bytes; passphrases with the same NFKD form give the same seed; the result always has 64 bytes.", "quantifier": "all mnemonics, all Unicode passphrases", "why_tests_cant": "All passphrases, including those starting with combining marks that could interact with the prefix during normalisation.", "anchors": ["bip0039/src/mnemonic/seed.rs:to_seed", "bip0039/src/mnemonic/mod.rs:Mnemonic::to_seed", "bip0039/src/mnemonic/mod.rs:normalize_utf8"]}
{"id": "C15", "title": "The seed does not depend on how the mnemonic was obtained", "statement": "If two mnemonics of a built-in language have the same entropy - one from entropy, another parsed from any whitespace/normalisation variant of the phrase - then they produce the same seed for every passphrase.", "quantifier": "all entropies, all spelling variants, all passphrases", "why_tests_cant": "Quantifies over all spellings of a phrase.", "anchors": ["bip0039/src/mnemonic/mod.rs:Mnemonic::to_seed", "bip0039/src/mnemonic/seed.rs:to_seed"]}
{"id": "C16", "title": "Word-count parameters are consistent", "statement": "For every Count, checksum bits = entropy bits / 32, total bits = entropy + checksum = 11 * word_count; Count::try_from(usize) is Ok exactly on 12/15/18/21/24, inverts usize::from(Count), and otherwise reports BadWordCount with the offending number.", "quantifier": "all Count values, all usize values", "why_tests_cant": "The conversion ranges over every usize.", "anchors": ["bip0039/src/mnemonic/mod.rs:Count"]}
{"id": "C17", "title": "generate always succeeds with the requested size", "statement": "Whatever bytes the random number generator delivers, generate(count) does not panic and returns a mnemonic with count.word_count() words whose entropy is exactly the generator's output of count.entropy_bit_length()/8 bytes, and which re-parses to itself.", "quantifier": "all RNG outputs, all counts, all ten languages", "why_tests_cant": "All RNG outputs.", "anchors": ["bip0039/src/mnemonic/mod.rs:Mnemonic::generate", "bip0039/src/mnemonic/mod.rs:AnyMnemonic::generate"]}
{"id": "C18", "title": "Built-in word lists satisfy the Language contract", "statement": "Each of the ten built-in languages has 2048 pairwise distinct, non-empty, whitespace-free, NFKD-normalised words; word_of(i) is the i-th word for i < 2048, and for every string w, index_of(w) = Some(i) exactly when w is the i-th word.", "quantifier": "all ten lists, all 2048 indices, and every string (for index_of returning None)", "why_tests_cant": "index_of returning None for every non-word is a claim about all strings.", "anchors": ["bip0039/src/language/mod.rs:Language", "bip0039/src/language/wordlist.rs:Wordlist", "bip0039/build.rs:generate_one", "bip0039/words/*.txt"]}
{"id": "C19", "title": "The build script accepts exactly well-formed lists", "statement": "The word-list generator fails for a file unless it has exactly 2048 lines that are valid UTF-8 and, after removing the line end (LF or CR LF) and then one more CR if present, non-empty, free of leading/trailing whitespace and pairwise distinct; when it succeeds the generated WORDS table lists the lines in order and INDEX maps each line to its position and nothing else.", "quantifier": "all file contents", "why_tests_cant": "All possible word-list files.", "anchors": ["bip0039/build.rs:read_wordlist", "bip0039/build.rs:generate_one"]}
{"id": "C20", "title": "The bit accumulator is a first-in first-out bit queue", "statement": "Any sequence of push_bits(v,n) (n<=56) and take_bits(n) (n<=56, n<=bits()) operations that never buffers more than 64 bits behaves like a queue of bits: each take returns the oldest n buffered bits read most-significant first, bits() is the queue length, can_take(n) holds iff at least n bits are queued, and no operation panics; the single exception is take_bits(0) on exactly 64 buffered bits, which shifts by 64.", "quantifier": "all operation sequences and values", "why_tests_cant": "Arbitrary operation histories.", "anchors": ["bip0039/src/mnemonic/bit_accumulator.rs:BitAccumulator"]}
{"id": "C21", "title": "Accessors and consuming accessors agree", "statement": "phrase(), Display, Debug, AsRef<str> and into_phrase() all yield the same string, and entropy() and into_entropy() the same bytes, for every Mnemonic and AnyMnemonic; cloning or converting to AnyMnemonic changes none of them, and consuming one secret leaves the other field untouched until drop.", "quantifier": "all mnemonics", "why_tests_cant": "All values of the types.", "anchors": ["bip0039/src/mnemonic/mod.rs:Mnemonic::into_phrase", "bip0039/src/mnemonic/mod.rs:Mnemonic::into_entropy", "bip0039/src/mnemonic/mod.rs:AnyMnemonic::into_phrase"]}
{"id": "C22", "title": "Child numbers encode index and hardened flag faithfully", "statement": "ChildNumber::new(i,h) is Ok exactly when i < 2^31; then index() = i, is_hardened() = h, u32::from = i + (h ? 2^31 : 0); otherwise the error has kind InvalidPath. from_bytes and to_bytes are mutually inverse on all 4-byte arrays and all child numbers, big-endian; any child number is recovered by new(index(), is_hardened()).", "quantifier": "all u32 indices, both flags, all 4-byte arrays", "why_tests_cant": "2^33 argument combinations with a boundary at 2^31.", "anchors": ["bip0032/src/path/child.rs:ChildNumber::new", "bip0032/src/path/child.rs:ChildNumber::index", "bip0032/src/path/child.rs:ChildNumber::to_bytes", "bip0032/src/path/child.rs:ChildNumber::from_bytes"]}
{"id": "C23", "title": "Child numbers and paths print to strings that parse back", "statement": "For every child number c, c.to_string().parse() = Ok(c); for every derivation path p (of any length), p.to_string().parse() = Ok(p).", "quantifier": "all 2^32 child numbers, all finite sequences of them", "why_tests_cant": "Unbounded length paths.", "anchors": ["bip0032/src/path/child.rs:Display for ChildNumber", "bip0032/src/path/child.rs:parse_child_component", "bip0032/src/path/mod.rs:Display for DerivationPath", "bip0032/src/path/mod.rs:FromStr for DerivationPath"]}
{"id": "C24", "title": "Path grammar", "statement": "A string parses as DerivationPath exactly when it is \"m\" or \"M\", or an optional \"m/\" or \"M/\" prefix followed by one or more components separated by single '/', each component an optional '+', one or more ASCII digits denoting a number below 2^31, and at most one suffix ', h or H; the resulting children are, in order, those numbers with hardened set exactly when a suffix is present. Every rejection has kind InvalidPath.", "quantifier": "all strings", "why_tests_cant": "A language-recognition claim over all strings.", "anchors": ["bip0032/src/path/mod.rs:FromStr for DerivationPath", "bip0032/src/path/child.rs:parse_child_component"]}
{"id": "C25", "title": "Parsing normalises", "statement": "If a string parses to a path p then p.to_string() parses to p, starts with \"m\", and uses only the ' suffix; two strings parse to the same path iff their canonical renderings are equal; every parsed child index is below 2^31.", "quantifier": "all strings", "why_tests_cant": "All strings accepted by the parser.", "anchors": ["bip0032/src/path/mod.rs:FromStr for DerivationPath", "bip0032/src/path/mod.rs:Display for DerivationPath"]}
{"id": "C26", "title": "Hardened-only types contain only hardened children", "statement": "HardenedChildNumber::new(i) is Ok iff i<2^31; try_from(ChildNumber) and try_from(DerivationPath) are Ok exactly when every child is hardened and preserve the value; parsing HardenedDerivationPath succeeds iff the DerivationPath parses and all children are hardened; every child yielded by children() is hardened (so the unchecked conversion's debug assertion never fires); the error reports the first non-hardened index.", "quantifier": "all paths, all strings", "why_tests_cant": "Unbounded paths and strings.", "anchors": ["bip0032/src/path/child.rs:HardenedChildNumber", "bip0032/src/path/mod.rs:HardenedDerivationPath"]}
{"id": "C27", "title": "Known versions map one-to-one to version bytes", "statement": "KnownVersion -> Version is injective, Version::into_known_version is its exact partial inverse over every u32 value and both kinds, no raw u32 is both a known public and a known private version, and KnownVersion::from_raw(raw) = Some(k) iff k's version bytes are raw.", "quantifier": "all u32 values, both kinds, all 20 known versions", "why_tests_cant": "Ranges over all u32 values.", "anchors": ["bip0032/src/xkey/payload/version.rs:Version::into_known_version", "bip0032/src/xkey/payload/version.rs:KnownVersion::into_version", "bip0032/src/xkey/payload/version.rs:KnownVersion::from_raw"]}
{"id": "C28", "title": "Extended key payload strings parse back", "statement": "For every payload that FromStr can produce, to_string() parses back to an identical payload; more generally to_string() of a payload with consistent fields parses back whenever its version bytes are not those of a known version of the other kind.", "quantifier": "all versions, depths, fingerprints, child numbers, chain codes and key data", "why_tests_cant": "About 2^600 payloads and the base58 carry chain.", "anchors": ["bip0032/src/xkey/payload/mod.rs:Display for ExtendedKeyPayload", "bip0032/src/xkey/payload/mod.rs:FromStr for ExtendedKeyPayload", "bip0032/src/xkey/payload/mod.rs:parse_payload"]}
{"id": "C29", "title": "Extended key strings are canonical", "statement": "If a string s parses as ExtendedKeyPayload p then p.to_string() = s; hence two different strings never parse to the same payload.", "quantifier": "all strings", "why_tests_cant": "All strings; malleability bugs hide in leading-zero and length handling.", "anchors": ["bip0032/src/xkey/payload/mod.rs:FromStr for ExtendedKeyPayload", "bip0032/src/xkey/payload/mod.rs:ExtendedKeyPayload::serialize"]}
{"id": "C30", "title": "Exact acceptance condition for extended key strings", "statement": "A string is accepted iff it is the Base58Check encoding of 78 bytes whose depth-zero rule (depth 0 implies zero parent fingerprint and zero child number) and key-prefix rule (02/03 for known public versions, 00 for known private ones, one of 00/02/03 otherwise) hold; the resulting version kind is that of the known version, or determined by the prefix for unknown versions; rejections carry kind InvalidPayload (encoding, length, depth-zero) or InvalidKeyData (prefix).", "quantifier": "all strings", "why_tests_cant": "All strings.", "anchors": ["bip0032/src/xkey/payload/mod.rs:FromStr for ExtendedKeyPayload", "bip0032/src/xkey/payload/mod.rs:parse_payload"]}
{"id": "C31", "title": "Encoded keys always fit the length limit", "statement": "to_string() of any payload never fails, only uses the 58 alphabet characters, and its length is at most 112, hence never above the 123-byte limit FromStr enforces; parsing any string, of any length and content, never panics.", "quantifier": "all payloads, all strings", "why_tests_cant": "Length is a function of the 656-bit numeric value; worst cases are not sampled by tests.", "anchors": ["bip0032/src/xkey/payload/mod.rs:ExtendedKeyPayload::MAX_KEY_PAYLOAD_STRING_LENGTH", "bip0032/src/xkey/payload/mod.rs:Display for ExtendedKeyPayload"]}
{"id": "C32", "title": "Base58Check round trip", "statement": "Base58Check decoding inverts encoding for every byte string that fits the buffer, and encoding inverts decoding for every string that decodes; leading zero bytes correspond to leading '1' characters.", "quantifier": "all byte strings, all strings", "why_tests_cant": "Carry propagation and leading zeros for all lengths.", "anchors": ["bip0032/src/xkey/payload/mod.rs:bs58::encode", "bip0032/src/xkey/payload/mod.rs:bs58::decode"]}
{"id": "C33", "title": "Extended private keys survive encode/parse", "statement": "For every secp256k1 extended private key whose metadata respects the depth-zero rule and every private Version v whose bytes are not a known public version, encode_with(v) succeeds and parsing its string as ExtendedPrivateKey returns a key with identical depth, fingerprint, child number, chain code and key bytes.", "quantifier": "all keys, all private versions", "why_tests_cant": "All 2^256 keys, all metadata.", "anchors": ["bip0032/src/xkey/core/private.rs:ExtendedPrivateKey::encode_with", "bip0032/src/xkey/core/private.rs:FromStr for ExtendedPrivateKey", "bip0032/src/xkey/core/private.rs:TryFrom<ExtendedKeyPayload>"]}
{"id": "C34", "title": "Extended public keys survive encode/parse", "statement": "Same for ExtendedPublicKey with public versions that are not a known private version.", "quantifier": "all keys, all public versions", "why_tests_cant": "All points, all metadata.", "anchors": ["bip0032/src/xkey/core/public.rs:ExtendedPublicKey::encode_with", "bip0032/src/xkey/core/public.rs:FromStr for ExtendedPublicKey", "bip0032/src/xkey/core/public.rs:TryFrom<ExtendedKeyPayload>"]}
{"id": "C35", "title": "Public and private encodings are never confused", "statement": "encode_with rejects a version of the wrong kind with InvalidVersion; a string produced by encode_with from a private key is never accepted by ExtendedPublicKey's parser and vice versa; parsing as a private key succeeds only if the payload's version is private and the key bytes are a valid scalar.", "quantifier": "all keys, all versions, all strings", "why_tests_cant": "Ranges over all versions (2^33) and all keys.", "anchors": ["bip0032/src/xkey/core/private.rs:ExtendedPrivateKey::encode_with", "bip0032/src/xkey/core/public.rs:ExtendedPublicKey::encode_with", "bip0032/src/xkey/core/private.rs:TryFrom<ExtendedKeyPayload>", "bip0032/src/xkey/core/public.rs:TryFrom<ExtendedKeyPayload>"]}
{"id": "C36", "title": "Private child derivation is BIP-0032 CKDpriv", "statement": "For every extended private key (k,c) over secp256k1 and child number i, with I = HMAC-SHA512(c, 0x00||ser256(k)||ser32(i)) for hardened i or HMAC-SHA512(c, serP(point(k))||ser32(i)) otherwise: derive_child returns the key (IL + k mod n, IR) when IL < n, IL + k mod n != 0 (and, for the k256 backend, IL != 0), and otherwise an error of kind InvalidDerivation.", "quantifier": "all keys, chain codes, child numbers", "why_tests_cant": "All 2^256 keys and the failure region of HMAC outputs that no test can reach.", "anchors": ["bip0032/src/xkey/core/private.rs:ExtendedPrivateKey::derive_child", "bip0032/src/xkey/core/mod.rs:hmac_sha512_split", "bip0032/src/curve/secp256k1/backends/k256.rs:TweakableKey for SecretKey", "bip0032/src/curve/secp256k1/backends/secp256k1.rs:TweakableKey for SecretKey"]}
{"id": "C37", "title": "Public child derivation is BIP-0032 CKDpub", "statement": "For every extended public key (K,c) and non-hardened i, with I = HMAC-SHA512(c, serP(K)||ser32(i)): derive_child returns (point(IL)+K, IR) when IL < n, the sum is not the identity (and, for k256, IL != 0); otherwise InvalidDerivation. A hardened i is always rejected with InvalidDerivation.", "quantifier": "all keys, chain codes, child numbers", "why_tests_cant": "All points and HMAC outputs.", "anchors": ["bip0032/src/xkey/core/public.rs:ExtendedPublicKey::derive_child", "bip0032/src/curve/secp256k1/backends/k256.rs:TweakableKey for PublicKey", "bip0032/src/curve/secp256k1/backends/secp256k1.rs:TweakableKey for PublicKey"]}
{"id": "C38", "title": "Private and public derivation commute", "statement": "For every extended private key x and every path p of non-hardened children, x.derive_path(p) succeeds iff x.public_key().derive_path(p) succeeds, and then x.derive_path(p).public_key() equals x.public_key().derive_path(p) in key, chain code, depth, fingerprint and child number.", "quantifier": "all keys, all non-hardened paths of any length", "why_tests_cant": "Unbounded paths over all keys, including the never-observed failing HMAC outputs.", "anchors": ["bip0032/src/xkey/core/private.rs:ExtendedPrivateKey::derive_path", "bip0032/src/xkey/core/public.rs:ExtendedPublicKey::derive_path", "bip0032/src/xkey/core/private.rs:ExtendedPrivateKey::public_key"]}
{"id": "C39", "title": "Path derivation composes", "statement": "derive_path over p followed by derive_path over q equals derive_path over the concatenation p+q (same value or same error), the empty path returns the key unchanged, and a one-child path equals derive_child; for private, public, and all SLIP-0010 derivations.", "quantifier": "all keys, all paths", "why_tests_cant": "All path splittings.", "anchors": ["bip0032/src/xkey/core/private.rs:ExtendedPrivateKey::derive_path", "bip0032/src/xkey/core/public.rs:ExtendedPublicKey::derive_path", "bip0032/src/xkey/slip10.rs:derive_slip10_path"]}
{"id": "C40", "title": "Derived metadata describes the derivation", "statement": "A successful derive_child(i) yields depth = min(255, parent depth + 1), parent fingerprint = first four bytes of RIPEMD160(SHA256(parent public key bytes)), and child number i; after derive_path(p) the depth is min(255, d + |p|) and the other fields are those of the last step. Depth never wraps to 0.", "quantifier": "all keys, all paths of any length (also longer than 255)", "why_tests_cant": "Depth saturation needs paths longer than 255 steps from every key.", "anchors": ["bip0032/src/xkey/core/private.rs:ExtendedPrivateKey::derive_child", "bip0032/src/xkey/core/public.rs:ExtendedPublicKey::derive_child", "bip0032/src/xkey/core/mod.rs:key_fingerprint", "bip0032/src/xkey/core/mod.rs:ExtendedKeyMetadata"]}
{"id": "C41", "title": "Public derivation never crosses a hardened step", "statement": "If a path contains a hardened child, ExtendedPublicKey::derive_path (BIP32 and SLIP-0010) returns an error of kind InvalidDerivation, whatever the key.", "quantifier": "all public keys, all paths with a hardened child at any position", "why_tests_cant": "All paths and positions.", "anchors": ["bip0032/src/xkey/core/public.rs:ExtendedPublicKey::derive_path", "bip0032/src/xkey/slip10.rs:Slip10NonHardenedDerivation for ExtendedPublicKey"]}
{"id": "C42", "title": "Master key generation", "statement": "ExtendedPrivateKey::new(seed) computes I = HMAC-SHA512(curve key, seed); it succeeds with private key IL, chain code IR, depth 0, zero fingerprint and zero child number iff IL is a valid scalar (nonzero, below n; always for ed25519), else fails with InvalidKeyData; it accepts seeds of every length.", "quantifier": "all seeds of every length, all curves", "why_tests_cant": "All seeds.", "anchors": ["bip0032/src/xkey/core/private.rs:ExtendedPrivateKey::new", "bip0032/src/xkey/core/mod.rs:derive_master_key_parts", "bip0032/src/curve/secp256k1/mod.rs:HMAC_KEY"]}
{"id": "C43", "title": "Every key reachable from a seed can be exported and re-imported", "statement": "For every seed and every path, if master generation and derive_path succeed, the resulting private key (and its public key) encodes under every known version of the right kind, and parsing the string gives back the same key; in particular derived keys never violate the depth-zero rule.", "quantifier": "all seeds, all paths", "why_tests_cant": "All reachable states.", "anchors": ["bip0032/src/xkey/core/private.rs:ExtendedPrivateKey::derive_path", "bip0032/src/xkey/payload/mod.rs:parse_payload"]}
{"id": "C44", "title": "The two secp256k1 backends agree", "statement": "K256Backend and Secp256k1FfiBackend return the same keys and fail on the same inputs for key parsing, serialisation, public key computation, master generation and child derivation, for every input whose HMAC left half is not all zero.", "quantifier": "all keys, tweaks, seeds, child numbers", "why_tests_cant": "Two independent wrappers must agree on all tweaks, including 0 and values near the group order.", "anchors": ["bip0032/src/curve/secp256k1/backends/k256.rs:K256Backend", "bip0032/src/curve/secp256k1/backends/secp256k1.rs:Secp256k1FfiBackend"]}
{"id": "C45", "title": "SLIP-0010 master key generation retries as specified", "statement": "new_slip10(seed) returns the first candidate I_0 = HMAC(key, seed), I_{j+1} = HMAC(key, I_j) whose left half is a valid key, with its right half as chain code and zeroed metadata; it never returns an error; for ed25519 the first candidate is always taken; it equals new(seed) whenever new(seed) succeeds.", "quantifier": "all seeds, all curves, any number of retries", "why_tests_cant": "Retries have probability 2^-127 and cannot be exercised by tests.", "anchors": ["bip0032/src/xkey/slip10.rs:Slip10MasterKey::new_slip10"]}
{"id": "C46", "title": "SLIP-0010 child derivation retries as specified", "statement": "derive_slip10_child returns the first candidate, starting from the standard data and continuing with 0x01||IR||ser32(i), whose left half is acceptable for the curve, with key computed by tweak addition (secp256k1, nist256p1) or directly (ed25519) and that candidate's right half as chain code.", "quantifier": "all keys, child numbers, any number of retries", "why_tests_cant": "Retries cannot be exercised by tests.", "anchors": ["bip0032/src/xkey/slip10.rs:Slip10HardenedOnlyDerivation", "bip0032/src/xkey/slip10.rs:Slip10NonHardenedDerivation"]}
{"id": "C47", "title": "SLIP-0010 on secp256k1 extends BIP-0032", "statement": "Whenever BIP-0032 derive_child / derive_path succeeds on a secp256k1 key (private or public), the SLIP-0010 derivation with the same arguments returns the identical key.", "quantifier": "all keys, all paths", "why_tests_cant": "All keys and paths.", "anchors": ["bip0032/src/xkey/slip10.rs:Slip10NonHardenedDerivation", "bip0032/src/xkey/core/private.rs:ExtendedPrivateKey::derive_child"]}
{"id": "C48", "title": "SLIP-0010 private and public derivation commute", "statement": "For every SLIP-0010 private key on secp256k1 or nist256p1 and every non-hardened path, deriving privately and converting to public gives the same extended public key as converting first and deriving publicly, including all retry rounds.", "quantifier": "all keys, all non-hardened paths, any number of retries", "why_tests_cant": "Retries and unbounded paths.", "anchors": ["bip0032/src/xkey/slip10.rs:Slip10NonHardenedDerivation"]}
{"id": "C49", "title": "ed25519 derivation is hardened-only and total", "statement": "Master generation and hardened child/path derivation on ed25519 always succeed at the first candidate (no retry, no error) for every seed and path; public key bytes are 0x00 followed by the raw 32 bytes and the slip10 byte conversions are mutually inverse, rejecting exactly inputs whose first byte is not 0.", "quantifier": "all seeds, keys, hardened paths, all 33-byte arrays", "why_tests_cant": "All inputs.", "anchors": ["bip0032/src/xkey/slip10.rs:Slip10HardenedOnlyDerivation", "bip0032/src/curve/ed25519/mod.rs:ed25519_pubkey_from_slip10_bytes", "bip0032/src/curve/ed25519/mod.rs:ed25519_pubkey_to_slip10_bytes", "bip0032/src/curve/ed25519/backends/ed25519_dalek.rs:Ed25519DalekBackend"]}
{"id": "C50", "title": "Errors do not reveal key material", "statement": "The kind, message and context of any error returned by key derivation, master generation or key parsing are determined by public inputs only (child number, seed length, string length, version, depth, fingerprint, child number field and key prefix byte): two calls that differ only in private key, chain code or seed bytes and both fail return identical kind, message and context.", "quantifier": "all pairs of keys / payloads", "why_tests_cant": "A two-run (non-interference) property over all pairs of secrets.", "anchors": ["bip0032/src/xkey/core/private.rs:ExtendedPrivateKey::derive_child", "bip0032/src/xkey/core/private.rs:TryFrom<ExtendedKeyPayload>", "bip0032/src/xkey/payload/mod.rs:parse_payload", "bip0032/src/error.rs:Error"]}
{"id": "C51", "title": "Dropping wipes secret fields", "statement": "The drop code of ExtendedKeyMetadata, ExtendedKeyPayload and (FFI backend) ExtendedPrivateKey overwrites depth, fingerprint, child number, chain code, key data and secret scalar with a fixed value independent of the previous contents.", "quantifier": "all values of these types", "why_tests_cant": "A two-run property over all values; tests cannot read memory after drop.", "anchors": ["bip0032/src/xkey/core/mod.rs:Zeroize for ExtendedKeyMetadata", "bip0032/src/xkey/payload/mod.rs:Drop for ExtendedKeyPayload", "bip0032/src/xkey/core/private.rs:Drop for ExtendedPrivateKey", "bip0032/src/curve/secp256k1/backends/secp256k1.rs:CurvePrivateKey::zeroize"]}
{"id": "C52", "title": "Error values keep their context and render it in order", "statement": "with_context appends, never drops or reorders entries, set_source and with_context leave kind and message unchanged, and Display prints kind, message and then all context entries in insertion order.", "quantifier": "all sequences of builder calls", "why_tests_cant": "All builder call sequences.", "anchors": ["bip0032/src/error.rs:Error::with_context", "bip0032/src/error.rs:Display for Error"]}
{"id": "C53", "title": "Version byte conversions are faithful", "statement": "from_public_bytes/from_private_bytes and to_bytes are mutually inverse, big-endian, preserve the kind, and is_public/is_private are exact complements; Display prints 0x followed by exactly eight upper-case hex digits that determine the value.", "quantifier": "all u32 values and 4-byte arrays", "why_tests_cant": "2^32 values.", "anchors": ["bip0032/src/xkey/payload/version.rs:Version"]}
{"id": "C54", "title": "A payload converts to exactly one kind of key", "statement": "For every parsed payload, version() tells which conversion can succeed: conversion to the other key kind fails with InvalidVersion, and conversion to the matching kind fails only with InvalidKeyData, exactly when the 32 key bytes are not a valid scalar (private) or the 33 bytes are not a curve point (public).", "quantifier": "all payloads", "why_tests_cant": "All payloads.", "anchors": ["bip0032/src/xkey/core/private.rs:TryFrom<ExtendedKeyPayload>", "bip0032/src/xkey/core/public.rs:TryFrom<ExtendedKeyPayload>"]}
{"id": "C55", "title": "The curve libraries' laws hold on the real curves", "statement": "The points of secp256k1 and of NIST P-256, with chord-and-tangent addition, the standard generator, the standard order and SEC1 compressed encoding, satisfy every law the other properties assume of an elliptic-curve library: associativity, commutativity, identity, scalar multiplication, generator order, and compression/decompression inverse to each other; every pair of integers on the curve is a point and nothing else is, and decompression returns exactly the point with the given abscissa and parity.", "quantifier": "all points, scalars and encodings of both curves", "why_tests_cant": "About 2^256 points; associativity quantifies over triples; primality of the field size and group order is not testable.", "anchors": ["bip0032/src/curve/secp256k1/mod.rs:Secp256k1Curve", "bip0032/src/curve/nist256p1/mod.rs:Nist256p1Curve", "bip0032/src/curve/secp256k1/backends/k256.rs:K256Backend", "bip0032/src/curve/nist256p1/backends/p256.rs:P256Backend"]}
{"id": "C56", "title": "Export, neutering and SLIP-0010 hold on the real curves without assumptions", "statement": "For k256 and libsecp256k1 on secp256k1 and p256 on NIST P-256: every key derived from a seed along any path can be exported in every known version and re-imported unchanged, private and public derivation along a non-hardened path succeed together and give matching keys and metadata, and the same holds for SLIP-0010 derivation.", "quantifier": "all seeds, keys and paths", "why_tests_cant": "All 256-bit keys and all paths.", "anchors": ["bip0032/src/xkey/core/private.rs:ExtendedPrivateKey::derive_path", "bip0032/src/xkey/core/public.rs:ExtendedPublicKey::derive_path", "bip0032/src/xkey/slip10.rs:Slip10NonHardenedDerivation"]}
{"id": "C57", "title": "The from_entropy and to_seed fuzz targets cannot fail", "statement": "No input to the bip0039 fuzz targets from_entropy and to_seed makes an assertion, unwrap or index fail: entropy survives the phrase round trip, regenerating gives the same phrase, and a reparsed mnemonic has the same seed for the same passphrase.", "quantifier": "all entropy arrays of the five sizes, all passphrase byte strings, any lossy UTF-8 decoding, any build", "why_tests_cant": "A fuzzer samples; the input space is 2^128 and larger.", "anchors": ["bip0039/fuzz/fuzz_targets/from_entropy.rs:fuzz_target", "bip0039/fuzz/fuzz_targets/to_seed.rs:fuzz_target"]}
{"id": "C58", "title": "The from_phrase fuzz target cannot fail", "statement": "No input to the bip0039 fuzz target from_phrase makes an assertion, unwrap or index fail: accepted phrases are normalised and reparse to the same mnemonic, replacing a word by not_in_wordlist is reported as exactly that unknown word, and replacing the last word by its successor either fails the checksum or gives a phrase that validates again.", "quantifier": "all phrase byte strings, flags and length limits, any lossy UTF-8 decoding", "why_tests_cant": "A random fuzzer input is almost never a valid phrase, so the interesting branches are hardly reached by testing.", "anchors": ["bip0039/fuzz/fuzz_targets/from_phrase.rs:fuzz_target", "bip0039/fuzz/fuzz_targets/from_phrase.rs:flip_checksum_like"]}
{"id": "C59", "title": "The parse_path fuzz target cannot fail", "statement": "No input to the bip0032 fuzz target parse_path makes an assertion, unwrap, index, insertion or removal fail: every built path prints to a text that parses back, each child survives its own text form, and every accepted mutation normalises to a fixed point within bounds.", "quantifier": "all byte strings, flags and counts, any lossy UTF-8 decoding", "why_tests_cant": "Unbounded byte strings and all 2^32 child numbers.", "anchors": ["bip0032/fuzz/fuzz_targets/parse_path.rs:fuzz_target", "bip0032/fuzz/fuzz_targets/parse_path.rs:mutate_path"]}
{"id": "C60", "title": "The derive_path fuzz target cannot fail", "statement": "No input to the bip0032 fuzz target derive_path makes an assertion or unwrap fail: derived keys survive export and import, public derivation agrees with private derivation on non-hardened paths and is refused exactly on paths with a hardened child, and the exported strings have the right kind.", "quantifier": "all seeds, path bytes and limits, both build profiles, any curve library meeting the laws (secp256k1 is one)", "why_tests_cant": "All seeds and paths; the underlying agreement is a group law on a 256-bit curve.", "anchors": ["bip0032/fuzz/fuzz_targets/derive_path.rs:fuzz_target", "bip0032/fuzz/fuzz_targets/derive_path.rs:build_path"]}
{"id": "C61", "title": "The parse_xkey fuzz target cannot fail", "statement": "No input to the bip0032 fuzz target parse_xkey makes an assertion, unwrap or index fail: keys of the ten versions it picks survive print and parse with the same version and kind, and parsing a payload with flipped bytes or a mutated Base58 text never panics.", "quantifier": "all seeds, path bytes, selectors, mutation bytes and flags, both build profiles, any lossy UTF-8 decoding", "why_tests_cant": "The space of keys, versions and mutations cannot be enumerated.", "anchors": ["bip0032/fuzz/fuzz_targets/parse_xkey.rs:fuzz_target", "bip0032/fuzz/fuzz_targets/parse_xkey.rs:pick_version"]}
{"id": "C62", "title": "Only the typed words of a phrase matter", "statement": "Two phrases with the same words, words being the maximal runs of characters that are not Unicode whitespace in the text as typed, have the same parse result and the same validation result, although normalisation changes some whitespace characters and can create spaces inside words; in particular the whitespace perturbation of the fuzz target changes nothing.", "quantifier": "all pairs of phrases, all languages, any Unicode data in which whitespace decomposes to a single whitespace character (Unicode 15.0 is proved to be such)", "why_tests_cant": "All Unicode strings.", "anchors": ["bip0039/src/mnemonic/mod.rs:Mnemonic::from_phrase", "bip0039/src/mnemonic/mod.rs:Mnemonic::validate", "bip0039/fuzz/fuzz_targets/from_phrase.rs:make_whitespace_mess"]}
{"id": "C63", "title": "ed25519 public keys are the RFC 8032 keys", "statement": "For every 32-byte secret the compressed public key of the ed25519 backend is a zero byte followed by the RFC 8032 encoding of s times the edwards25519 base point, s being the clamped lower half of the SHA-512 of the secret; it is a point of the curve other than the identity, although the library reduces the scalar modulo the group order first.", "quantifier": "all 32-byte secrets, both library behaviours on non-canonical encodings", "why_tests_cant": "All secrets; the reduction is sound only because the base point has exactly that order.", "anchors": ["bip0032/src/curve/ed25519/backends/ed25519_dalek.rs:Ed25519DalekBackend", "bip0032/src/curve/ed25519/backends/ed25519_dalek.rs:CurvePrivateKey for SigningKey"]}
{"id": "C64", "title": "Which 33 bytes are an ed25519 public key", "statement": "A 33-byte string is accepted as an ed25519 public key exactly when its first byte is zero and the rest encodes a y for which the edwards25519 equation has an x (and, if the library refuses non-canonical encodings, y is reduced and no sign is set on x = 0); an accepted key is returned unchanged by the serialiser, and a refusal says whether the prefix or the point was wrong.", "quantifier": "all 33-byte strings, both library behaviours on non-canonical encodings", "why_tests_cant": "2^264 strings; acceptance depends on a square root modulo 2^255-19.", "anchors": ["bip0032/src/curve/ed25519/backends/ed25519_dalek.rs:CurvePublicKey for VerifyingKey"]}
{"id": "C65", "title": "Keys of different seeds and paths have different chain codes unless HMAC-SHA512 collides", "statement": "If the keys derived from two seeds along two paths have the same chain code, then seeds and paths are equal, or among the inputs the two derivations actually gave to HMAC-SHA512 there are two different ones whose outputs have the same right half; the same holds for two paths of equal length below one extended public key.", "quantifier": "all seeds, all paths with 32-bit indices, every backend, debug and release", "why_tests_cant": "No test can rule out accidental coincidences of tree nodes; the reduction to a hash collision covers all pairs of paths, including paths of different length.", "anchors": ["bip0032/src/xkey/core/private.rs:derive_path", "bip0032/src/xkey/core/private.rs:derive_child", "bip0032/src/xkey/core/public.rs:derive_child"]}
{"id": "C66", "title": "A non-hardened descendant's private key and the extended public key give the extended private key", "statement": "For an extended private key and any descendant along a path without hardened step, subtracting from the descendant's private key the sum of tweaks computed from the extended public key alone, modulo the group order, yields the extended private key.", "quantifier": "all well-formed extended private keys, all non-hardened paths, every backend, debug and release", "why_tests_cant": "A security caveat of BIP-0032 about all keys and paths; the recovery uses public data only, which a run cannot show.", "anchors": ["bip0032/src/xkey/core/private.rs:derive_child", "bip0032/src/xkey/core/public.rs:derive_child"]}
{"id": "C67", "title": "Different wallets have different keys unless PBKDF2 or HMAC-SHA512 collides", "statement": "If two wallets, each given by an entropy, a built-in language, a passphrase and a path, reach the same chain code, then the phrases, the NFKD forms of the passphrases and the paths are equal (and the entropies, for one language), or PBKDF2 maps their two different inputs to one seed, or the derivations gave HMAC-SHA512 two different inputs with the same right half.", "quantifier": "all entropies of legal length, all built-in languages, all passphrases, all paths, every backend", "why_tests_cant": "Spans both crates and all passphrases; shows that no information is lost before the hash functions.", "anchors": ["bip0039/src/mnemonic/seed.rs:to_seed", "bip0039/src/mnemonic/mod.rs:to_seed", "bip0032/src/xkey/core/private.rs:new"]}
{"id": "C68", "title": "Normalisation is NFKD as the Unicode standard defines it", "statement": "The normal form given to phrases and passphrases is the full compatibility decomposition of the string (Hangul syllables by the composition formula, other characters by the table), put in canonical order by exchanging reorderable pairs until none is left, and it is the only string obtained that way, whether or not the quick check skips the work.", "quantifier": "all strings, every Unicode data table with the structural properties of the standard", "why_tests_cant": "All strings of characters; uniqueness of the result of an arbitrary sequence of exchanges is not testable.", "anchors": ["bip0039/src/mnemonic/mod.rs:normalize_utf8"]}
{"id": "C69", "title": "Error messages and counts can be told apart", "statement": "Two bip0039 errors with the same message are the same error with the same word or count, and two word counts with the same display are the same.", "quantifier": "all errors, all words, all counts", "why_tests_cant": "Errors carry arbitrary words and numbers.", "anchors": ["bip0039/src/error.rs:Display for Error", "bip0039/src/mnemonic/mod.rs:Display for Count"]}
{"id": "C70", "title": "The build script reports the first fault of a word-list file", "statement": "For a file given by its lines, the script fails with an error exactly when that error is the first fault of the file: the first line that is not UTF-8, has surrounding whitespace or is empty, with its 1-based number; else the first word that repeats an earlier one, with the number of its line; else a number of lines other than 2048, with that number.", "quantifier": "all files, all errors", "why_tests_cant": "All byte strings; the order of the checks and the line numbers matter only for files with several faults.", "anchors": ["bip0039/build.rs:read_wordlist", "bip0039/build.rs:generate_one"]}
{"id": "C71", "title": "The generated source denotes exactly the words of the file", "statement": "The Rust source the script writes for an accepted file is in the syntax of two comment lines, an array of 2048 string literals, a map without duplicate keys and a static, and its only reading is the word list with each word at its line and indexed by its position; in particular every string written with {:?} is read back unchanged whichever characters are escaped.", "quantifier": "all accepted files, all file names, every choice of escaped characters, all readings", "why_tests_cant": "Words may contain quotes, backslashes, control and combining characters; no accepted file can break the generated source.", "anchors": ["bip0039/build.rs:generate_one"]}
{"id": "C72", "title": "Every feature selection builds exactly the languages it selects", "statement": "For every requested set of Cargo features, the build script writes the source a language module includes exactly when the module, the marker type and the enum variant of that language are compiled, from the file of that language; it fails exactly when the file of a selected language is missing or faulty and names it; with the files of the repository it succeeds for every selection and each module has the words of its language. all-languages selects all ten, the default features English only.", "quantifier": "all sets of requested features, all contents of the words directory, all languages", "why_tests_cant": "There are 2^13 feature selections and any directory contents; tests build one.", "anchors": ["bip0039/build.rs:main", "bip0039/Cargo.toml:features", "bip0039/src/language/wordlist.rs:english", "bip0039/src/language/mod.rs:BuiltInLanguage"]}
{"id": "C73", "title": "The text forms of bip0032 errors can be read back", "statement": "Errors with the same Display or the same Debug text have the same kind. If message, context and source text have no line feeds and keys have no colons, the Debug text determines the kind, the message, every context entry in order and the source text. Without the condition this fails: the error for a path with a line feed can print like another error.", "quantifier": "all errors, all displays of library errors", "why_tests_cant": "Messages, context entries and sources are arbitrary strings.", "anchors": ["bip0032/src/error.rs:Debug for Error", "bip0032/src/error.rs:Display for Error", "bip0032/src/path/mod.rs:from_str"]}
{"id": "C74", "title": "Comparison operators agree with what values stand for", "statement": "Word counts are ordered by their number of words and the default is the smallest. Mnemonics of one language obtained from the API are equal exactly when their phrases are equal and exactly when their entropies are equal. Language handles that compare equal give the same words and indices, handles of different built-in languages never compare equal, and equal run-time mnemonics have the same language, phrase, entropy and seeds. Two handles of the same language may compare unequal, since function addresses need not be unique.", "quantifier": "all counts, all mnemonics made by the API, all program images, all handles", "why_tests_cant": "Quantifies over every placement of functions in memory and all mnemonics.", "anchors": ["bip0039/src/language/mod.rs:PartialEq for AnyLanguage", "bip0039/src/mnemonic/mod.rs:Count", "bip0039/src/mnemonic/mod.rs:Mnemonic", "bip0039/src/mnemonic/mod.rs:AnyMnemonic"]}
{"id": "C75", "title": "SLIP-0010 keys of different seeds and paths have different chain codes unless HMAC-SHA512 collides", "statement": "If the keys derived by SLIP-0010 from two seeds along two paths have the same chain code, then among the inputs the two derivations gave to HMAC-SHA512, including those of rejected rounds, there are two different ones whose outputs have the same right half; or the paths are equal and the seeds are equal or one is a rejected candidate of the other. In that last case both seeds do have the same master key. For ed25519 the exception does not exist.", "quantifier": "all seeds, all paths with 32-bit indices, any number of rounds, every backend", "why_tests_cant": "No test reaches a retry, and no test can rule out coincidences of tree nodes.", "anchors": ["bip0032/src/xkey/slip10.rs:new_slip10", "bip0032/src/xkey/slip10.rs:derive_slip10_child", "bip0032/src/xkey/slip10.rs:derive_slip10_path"]}
{"id": "C76", "title": "A SLIP-0010 non-hardened descendant's private key and the extended public key give the extended private key", "statement": "For an extended private key and any SLIP-0010 descendant along a path without hardened step, subtracting from the descendant's private key the sum of the accepted tweaks found from the extended public key alone, modulo the group order, yields the extended private key, however many rounds the searches take.", "quantifier": "all well-formed extended private keys, all non-hardened paths, any number of rounds, every backend", "why_tests_cant": "A security caveat about all keys and paths; retries never occur in tests.", "anchors": ["bip0032/src/xkey/slip10.rs:derive_slip10_child"]}
{"id": "C77", "title": "What a mnemonic leaves in released heap memory", "statement": "Dropping a mnemonic, or taking its phrase or entropy out, overwrites the full blocks of the remaining secret buffers with zeros before they are released. Making a mnemonic (from legal entropy, or from a borrowed phrase that is already normalised) releases nothing else if its phrase has at most eight bytes a word plus the spaces; otherwise every block released is a beginning of the phrase, and if growing moves the buffer one of them consists of all the leading words that fit. So English, both Chinese lists, Czech and Portuguese leave nothing; every Japanese and Korean mnemonic leaves at least a fifth of its words, and some French, Italian and Spanish ones leave at least 8 of 12. Entropy of an illegal length is released as it is.", "quantifier": "all allocators, builds, Unicode data, languages meeting the contract, entropies, phrases and buffer capacities", "why_tests_cant": "Released memory cannot be read by safe tests, and the lengths of all phrases of all languages matter.", "anchors": ["bip0039/src/mnemonic/entropy.rs:encode_entropy_with", "bip0039/src/mnemonic/phrase.rs:decode_phrase_with", "bip0039/src/mnemonic/mod.rs:into_phrase", "bip0039/src/mnemonic/mod.rs:into_entropy", "bip0039/src/mnemonic/mod.rs:from_entropy"]}
{"id": "C78", "title": "What parsing and validating a phrase leaves in released heap memory", "statement": "Parsing a phrase with an unknown word releases, unwiped, the words up to it and the whole bytes they decode to; parsing a phrase with a wrong checksum releases all its words and the entropy they encode. Validating releases the decoded entropy whether or not the checksum is right. An owned argument is released as it is, and so is the normalised copy if one is made.", "quantifier": "all allocators whose buffers grow as asked, Unicode data, languages, owned and borrowed phrases", "why_tests_cant": "Released memory cannot be read by safe tests.", "anchors": ["bip0039/src/mnemonic/phrase.rs:decode_phrase_with", "bip0039/src/mnemonic/phrase.rs:finish", "bip0039/src/mnemonic/mod.rs:validate", "bip0039/src/mnemonic/mod.rs:from_normalized_phrase", "bip0039/src/mnemonic/mod.rs:normalize_utf8"]}
{"id": "C79", "title": "Deriving a seed leaves the passphrase in released heap memory", "statement": "Every call of to_seed releases, unwiped, a block that holds the text mnemonic followed by the passphrase, and another with its normalised form if that is computed.", "quantifier": "all allocators whose buffers grow as asked, Unicode data, passphrases and initial capacities of format!", "why_tests_cant": "Released memory cannot be read by safe tests.", "anchors": ["bip0039/src/mnemonic/seed.rs:to_seed", "bip0039/src/mnemonic/mod.rs:normalize_utf8"]}
{"id": "C80", "title": "A rejected path names its first bad component and what is wrong with it", "statement": "Parsing a path fails exactly when it is empty or some component between slashes is not a child number, and the error is then the one of the first such component: empty path component with the path, missing child index with the component when it is only a hardened marker, child index must be less than 2^31 with the index when it is a number from 2^31 to below 2^32, invalid child index with the component otherwise. Without line feeds in the path the error prints on one line.", "quantifier": "all strings", "why_tests_cant": "Which message goes with which input is a partition of all strings; tests sample it.", "anchors": ["bip0032/src/path/mod.rs:from_str", "bip0032/src/path/child.rs:parse_child_component", "bip0032/src/path/child.rs:new"]}
{"id": "C81", "title": "The error of a rejected extended key string is the first failing check", "statement": "Parsing an extended key string fails with: invalid base58check length when it is longer than 123 bytes; invalid base58check encoding with bs58's reason (the first foreign character or byte and its position, too large a number, too short, or both checksums); invalid extended key length with the number of bytes; a zero depth with a parent fingerprint or child number; a key prefix that does not go with the version. Each exactly under its condition, in this order, with the stated kind, message, context values and source.", "quantifier": "all strings, both build profiles", "why_tests_cant": "The conditions partition all strings, most of which random tests reject at the first check.", "anchors": ["bip0032/src/xkey/payload/mod.rs:from_str", "bip0032/src/xkey/payload/mod.rs:parse_payload"]}
{"id": "C82", "title": "The errors of key operations say what failed", "statement": "encode_with fails exactly for a version of the other kind and shows it in hexadecimal; parsing a key adds to C81 the wrong kind with its version and bytes that are no key of the curve with the library's error; new fails exactly when IL is no private key and shows the seed length; derive_child fails exactly when there is no child key, or the child is hardened and the parent public, and shows the child's index and hardened flag, with the library's error as source; SLIP-0010 public derivation fails exactly for hardened children.", "quantifier": "all keys, versions, child numbers, seeds, strings, backends of the curve contract, build profiles", "why_tests_cant": "Most of these failures have probability below 2^-127.", "anchors": ["bip0032/src/xkey/core/private.rs:encode_with", "bip0032/src/xkey/core/private.rs:derive_child", "bip0032/src/xkey/core/private.rs:new", "bip0032/src/xkey/core/private.rs:try_from", "bip0032/src/xkey/core/public.rs:encode_with", "bip0032/src/xkey/core/public.rs:derive_child", "bip0032/src/xkey/core/public.rs:try_from", "bip0032/src/xkey/slip10.rs:derive_slip10_child"]}
{"id": "C83", "title": "SLIP-0010 master generation leaves the seed in released heap memory", "statement": "new_slip10 returns the same key as the pure model, and on success releases exactly these blocks: the copy of the seed as it is when the first candidate is a key; otherwise the copy of a seed shorter than 64 bytes if the allocator moved it, and a block holding the last rejected candidate followed by what the seed had beyond its 64th byte. For every curve and non-empty seed a prefix of a released block is a seed that gives the same master key.", "quantifier": "all seeds, curves (any Curve; secp256k1, nist256p1, ed25519 backends exactly), numbers of retries, allocators that grant what is asked, build profiles", "why_tests_cant": "Tests do not see freed memory, and a retry has probability below 2^-32.", "anchors": ["bip0032/src/xkey/slip10.rs:new_slip10"]}
{"id": "C84", "title": "Printing an extended key leaves its text in released heap memory", "statement": "Displaying a payload releases exactly one heap block, which holds the printed text followed by zeros and is not wiped; the buffer never grows. For every exportable extended private key, parsing the text found in that block gives the key.", "quantifier": "all well-formed payloads and extended private keys, versions, backends, allocators", "why_tests_cant": "Tests do not see freed memory.", "anchors": ["bip0032/src/xkey/payload/mod.rs:fmt", "bip0032/src/xkey/core/private.rs:encode_with"]}
{"id": "C85", "title": "Hashing in pieces is hashing the concatenation", "statement": "SHA-256, SHA-512 and HMAC-SHA512 fed by any sequence of update calls give the value of the whole input, PBKDF2 with one keyed and cloned MAC gives the standard value, and child derivation with the update calls the code makes (one of 37 bytes if hardened, otherwise two) gives the tweak and chain code of the BIP-0032 formula.", "quantifier": "all inputs, all ways to cut them, all keys of any length, every curve library, all child numbers", "why_tests_cant": "Block boundaries, empty pieces and key lengths at the block size are rarely all met by tests.", "anchors": ["bip0032/src/xkey/core/mod.rs:hmac_sha512_split", "bip0032/src/xkey/core/private.rs:derive_child", "bip0032/src/xkey/core/public.rs:derive_child", "bip0039/src/mnemonic/seed.rs:to_seed"]}
{"id": "C86", "title": "A SHA-2 collision exhibits a collision of the compression function", "statement": "If two different messages have the same SHA-512 (SHA-256) value, then among the compression calls made for them two have different arguments and the same result; padding is injective.", "quantifier": "all pairs of messages below the length limit of the standard", "why_tests_cant": "No collision is known, so no test meets the hypothesis.", "anchors": ["bip0032/src/xkey/core/mod.rs:key_fingerprint", "bip0039/src/mnemonic/entropy.rs:encode_entropy_with"]}
{"id": "C87", "title": "Keys of different seeds and paths have different chain codes unless SHA-512 collides", "statement": "Two inputs of HMAC-SHA512 whose outputs have the same right half have equal data and equivalent keys, or SHA-512 maps two different inputs of the computation to values with the same right half. Keys of at most 128 bytes are equivalent just if they differ by zeros at the end; longer ones stand for their hashes. So two seed and path pairs with one chain code are equal, or SHA-512 collides in that sense, or one derivation passes through the chain code that is the master key text followed by zeros. Two passwords without zero bytes key PBKDF2 differently unless SHA-512 collides or one is the hash of the other.", "quantifier": "all keys and data, all seeds, all paths with 32-bit indices, every backend, debug and release", "why_tests_cant": "No test can rule out coincidences of tree nodes.", "anchors": ["bip0032/src/xkey/core/mod.rs:hmac_sha512_split", "bip0032/src/xkey/core/private.rs:derive_path", "bip0039/src/mnemonic/seed.rs:to_seed"]}
{"id": "C88", "title": "Every curve, backend and feature set offers what the tables of README.md and SLIP-0010.md say", "statement": "For every set of requested features the enabled features, built crates and compiled backend modules are those the tables name, and a backend's module is compiled just if its crate is built. For every backend, of the crate or of a downstream crate, secp256k1 keys have BIP-0032 derivation and serialization (and with slip10 all SLIP-0010 derivation), nist256p1 keys only SLIP-0010 derivation of all kinds, ed25519 keys only hardened SLIP-0010 derivation. Nothing a downstream crate can implement gives ed25519-dalek keys a non-hardened derivation.", "quantifier": "all sets of requested features, all impls of downstream crates that the orphan rule and the bounds allow, all backends", "why_tests_cant": "CI builds three feature sets; absence of an operation for all downstream impls is not testable by running.", "anchors": ["bip0032/Cargo.toml:features", "bip0032/src/curve/mod.rs", "bip0032/src/curve/secp256k1/mod.rs", "bip0032/src/curve/nist256p1/mod.rs", "bip0032/src/curve/ed25519/mod.rs", "bip0032/src/xkey/slip10.rs"]}
{"id": "C89", "title": "Cargo features are additive", "statement": "Turning on features removes no trait impl and no operation and breaks no downstream impl; the exception is CurveError::new, which accepts types that only implement Display and Debug just if std is off.", "quantifier": "all pairs of feature sets, all downstream crates", "why_tests_cant": "Feature unification happens in the builds of other crates.", "anchors": ["bip0032/Cargo.toml:features", "bip0032/src/curve/error.rs:CurveError::new"]}
{"id": "C90", "title": "Paths, child numbers and versions compare, concatenate and default as what they stand for", "statement": "Two child numbers, hardened child numbers or paths are equal exactly if they print the same; a child number is its index plus 2^31 if hardened; known versions and error kinds are equal exactly if they have the same number or name. Extending a path appends: the text, hardened conversion and derivation of an extended path are those of the first path followed by those of the second, and joining two path texts with a slash parses to it unless the second starts with m or M. The default path is m and derives the key itself.", "quantifier": "all child numbers, paths, path texts, keys, curves", "why_tests_cant": "Tests compare a few paths.", "anchors": ["bip0032/src/path/mod.rs:20-72", "bip0032/src/path/child.rs:6-75", "bip0032/src/xkey/payload/version.rs:164"]}
{"id": "C91", "title": "Debug output determines the value", "statement": "For the derived Debug impls of both crates, plain and pretty ({:?} and {:#?}), two values of a type with the same output are the same value. The plain output of numbers, paths, versions and key metadata is the documented Rust syntax, in one line. A registered version prints as the four characters its texts start with, capitalised, followed by the script type where SLIP-0132 uses a capital letter.", "quantifier": "all values of the types with derived Debug, both formats", "why_tests_cant": "Tests print a few values.", "anchors": ["bip0032/src/path/child.rs:6", "bip0032/src/path/mod.rs:20", "bip0032/src/xkey/payload/version.rs:6", "bip0032/src/xkey/core/mod.rs:13", "bip0039/src/mnemonic/mod.rs:34", "bip0039/src/error.rs:6", "bip0039/src/language/mod.rs:118"]}
{"id": "C92", "title": "Encoded keys of a registered version have 111 characters and start with the registered prefix", "statement": "Whatever the key, depth, fingerprint, child number and chain code, the text of an extended key encoded with one of the 20 known versions has 111 characters and starts with the four characters SLIP-0132 registers for that version (xpub, xprv, ..., Vprv). A text that parses with a known version starts with the prefix of that version and of no other. The prefix alone does not make the version known (refuted).", "quantifier": "all well-formed payloads, all keys of all backends, all 20 known versions", "why_tests_cant": "The prefix must hold for all 2^592 payloads of a version; tests print a few keys.", "anchors": ["bip0032/src/xkey/payload/version.rs:71-246", "bip0032/src/xkey/payload/mod.rs", "bip0032/src/xkey/core/private.rs:encode_with", "bip0032/src/xkey/core/public.rs:encode_with"]}
{"id": "C93", "title": "Which local variables keep private keys and which are wiped", "statement": "In key construction, derivation (BIP-0032 and SLIP-0010), parsing and printing, every local variable of a wiping type holds only zeros (for scalars: one) when its storage ends, on success and on every error, and every extended private key on the way of a path is dropped and wiped, also when the path fails. With libsecp256k1, what a child that is not hardened leaves behind can be computed from the extended public key. No private key is left anywhere (refuted): the arrays shadowed by their Zeroizing copies, the temporaries of to_bytes, the RustCrypto child scalar and the payload arrays keep private keys. With ed25519-dalek the keys on a path are wiped just if that crate's feature zeroize is on.", "quantifier": "all seeds, keys, child numbers, paths and texts; all backends and curve libraries; any number of SLIP-0010 rounds", "why_tests_cant": "Tests cannot read storage whose life has ended, and would have to cover every way out of every function.", "anchors": ["bip0032/src/xkey/core/private.rs", "bip0032/src/xkey/core/mod.rs:54-72", "bip0032/src/xkey/slip10.rs", "bip0032/src/xkey/payload/mod.rs", "bip0032/src/curve/secp256k1/backends", "bip0032/src/curve/ed25519/backends/ed25519_dalek.rs"]}
{"id": "C94", "title": "The shared libsecp256k1 contexts are race free and invisible in the results", "statement": "With feature std, the signing and verification contexts are created on first use behind OnceLock and shared by all threads. In every execution of any number of threads running any key operations, no thread reads a context that is not completely written and published to it; at most one thread at a time creates a context, one context of each kind is ever published and it never changes; a thread that ends has the result it has without std, where each call makes a context of its own, whatever the contexts are blinded with; in particular concurrent derivation of paths returns the keys of the sequential model. If the creation of a context panics, the other threads can still end.", "quantifier": "all numbers of threads, all programs over to_public and add_tweak, all interleavings, all stale values a weak memory may return, all random blindings, all curve libraries meeting the group laws", "why_tests_cant": "Tests run a few schedules on one machine, whose memory model may be stronger than the language's.", "anchors": ["bip0032/src/curve/secp256k1/backends/secp256k1.rs:33-69", "bip0032/src/curve/secp256k1/backends/secp256k1.rs:85-111", "bip0032/src/xkey/core/private.rs:93-135", "bip0032/src/xkey/core/public.rs:53-95"]}
{"id": "C95", "title": "What the local variables of bip0039 keep of the entropy and the phrase", "statement": "When encoding has succeeded, its variables hold the indices of the last two words, the last byte and the checksum that these determine, and the first byte of the hash; the accumulator is empty. When a word is unknown, decoding leaves the index of the word before it and the low bits of that index that did not fill a byte, and nothing of the earlier words. When all words are known, it leaves the index of the last word, the checksum bits this determines, and the first byte of the hash of the decoded bytes, whether or not the checksum is right. generate wipes the array it draws the entropy into (refuted): the array keeps the whole entropy, from which the same mnemonic can be made after the result was dropped.", "quantifier": "all entropies of legal length, all texts, all languages, word counts and random sources", "why_tests_cant": "Tests cannot read the variables of a function that returned, and would have to try every position of an unknown word in every phrase.", "anchors": ["bip0039/src/mnemonic/entropy.rs:41-96", "bip0039/src/mnemonic/phrase.rs:52-176", "bip0039/src/mnemonic/bit_accumulator.rs", "bip0039/src/mnemonic/mod.rs:236-268", "bip0039/src/mnemonic/mod.rs:484-517"]}
{"id": "C96", "title": "A uniform random source makes every valid mnemonic equally likely", "statement": "For every language and word count, each mnemonic that the parser accepts with that many words is produced by generate from exactly one of the equally likely outcomes of drawing ENT/8 bytes, and generate produces nothing else; so there are 2^ENT valid mnemonics of that length and none is more likely than another. Any list of k texts, however written, opens the mnemonics of at most k of the 2^ENT outcomes.", "quantifier": "all built-in languages, word counts, outcomes of the random source, accepted texts and lists of guesses, all Unicode tables that follow the standard", "why_tests_cant": "There are at least 2^128 outcomes; a test sees a few of them and cannot tell a slightly biased or repeating generator from a uniform one.", "anchors": ["bip0039/src/mnemonic/mod.rs:236-268", "bip0039/src/mnemonic/entropy.rs:41-96", "bip0039/src/mnemonic/phrase.rs:52-176"]}
{"id": "C97", "title": "Benchmarks and the randomised test measure working code for every draw", "statement": "For every outcome of the random source, no bip0039 benchmark panics and each measures a success on a phrase of the number of words in its name; tests/generate.rs passes with every set of language features. The bip0032 benchmarks draw seeds of 16, 32 or 64 bytes; their setup panics for exactly the seeds whose HMAC has no valid key in its left half; then encoding and decoding never panic and decode the key that was encoded, and the derive benchmark panics exactly when a step of its path has no valid child.", "quantifier": "all outcomes of the random source, all entries of WORDS, all sets of language features, both measured backends over every group that satisfies the curve laws", "why_tests_cant": "Running the benchmarks shows a few draws; the panicking seeds have probability about 2^-127 and are never drawn.", "anchors": ["bip0039/benchmarks/src", "bip0039/tests/generate.rs", "bip0032/benchmarks/src"]}
{"id": "C98", "title": "What branches and addresses reveal while a phrase is encoded or decoded", "statement": "Encoding takes the same branches for any two entropies of one length; the indices at which it reads the word list are exactly the 11-bit groups of entropy and checksum, so they determine the entropy and differ between entropies of one length. Decoding takes the same branches for any two phrases with the same number of words, the same position of the first unknown word and the same verdict on the checksum. Decoding looks up no word when the count is wrong, no word after the first unknown one and never more than 24, and hashes only when every word is known, once; encoding hashes once, and nothing when the size is wrong.", "quantifier": "all entropies, phrases, modes, builds and word lists that meet the contract", "why_tests_cant": "A test compares outputs; which branches and addresses were used, for every pair of secrets, is not in the output.", "anchors": ["bip0039/src/mnemonic/entropy.rs", "bip0039/src/mnemonic/phrase.rs"]}
{"id": "C99", "title": "The chain of causes of every error, with and without std", "statement": "Walking source() from the error of any bip0032 operation gives only the error itself when there is no library error; for base58 errors, which are exactly those of kind InvalidPayload, it gives the library's chain with std and its text without; for errors of a curve, of kinds InvalidKeyData and InvalidDerivation, the library's text, which is then repeated, and with std the library's causes. Turning std on changes no Display or Debug text and only adds causes at the end; with std the root cause is the library's. That no text is repeated is refuted.", "quantifier": "all operations, inputs, backends of the curve contract, build profiles, both settings of std, all texts and causes of library errors", "why_tests_cant": "Tests compare kinds and messages of chosen inputs in one build; the chain under both features and for every library error is not exercised.", "anchors": ["bip0032/src/error.rs:35-187", "bip0032/src/curve/error.rs:8-67", "bip0032/src/xkey/payload/mod.rs:82-96"]}
{"id": "C100", "title": "What key derivation reveals by its branches and library calls", "statement": "Deriving a private key along a path makes, for each child up to the first that does not exist, exactly the same sequence of branches and library calls: the parent's public key, one HMAC-SHA512 with a 32-byte key over 37 bytes, one tweak, one fingerprint of 33 bytes; so two keys whose path can be derived show the same, whatever key, chain code and metadata. Public derivation refuses a hardened child before any hash. A BIP-0032 master key takes exactly one HMAC. SLIP-0010 master and child derivation hash once per candidate up to the first candidate that is a key, over the seed and then 64 bytes, or 37 bytes each time; on ed25519 exactly once.", "quantifier": "all keys with 32-byte chain codes, all paths, seeds, backends of the curve contract, both build profiles, any number of SLIP-0010 rounds", "why_tests_cant": "Tests see results, not the sequence of branches and calls, and never reach a retry of SLIP-0010.", "anchors": ["bip0032/src/xkey/core/private.rs:32-135", "bip0032/src/xkey/core/public.rs:53-95", "bip0032/src/xkey/slip10.rs:55-261", "bip0032/src/xkey/core/mod.rs:54-72"]}
{"id": "C101", "title": "The accessors of an extended key are the fields of its string and determine its descendants", "statement": "parent_fingerprint(), chain_code() and to_bytes() of an extended key are bytes 5..9, 13..45 and 46..78 (private, after a zero byte) or 45..78 (public) of the Base58Check payload it prints as; a clone is equal and public_key() keeps fingerprint and chain code. Two keys with the same to_bytes() and chain_code() have the same descendants along every path up to depth, and the same errors. That the accessors determine the key is refuted: keys that differ in depth print differently and no accessor tells them apart.", "quantifier": "all well-formed extended keys of backends meeting the curve contract, all versions, all paths", "why_tests_cant": "Tests read accessors of a few keys; that derivation ignores depth, fingerprint and child number concerns all keys and paths.", "anchors": ["bip0032/src/xkey/core/private.rs:24-28", "bip0032/src/xkey/core/private.rs:63-85", "bip0032/src/xkey/core/public.rs:24-45", "bip0032/src/xkey/core/mod.rs:12-19"]}
{"id": "C102", "title": "Texts that two built-in languages accept", "statement": "Of the ten built-in word lists only English and French, and the two Chinese lists, share words: English and French give every shared word different indices, the Chinese lists equal ones. A text that two built-in languages accept gives the same stored phrase and, for every passphrase, the same seed. If the languages differ they are English and French, and the entropies differ, or the two Chinese ones, and the mnemonics are equal. That an accepted text has one entropy is refuted by a 12-word phrase valid in both English and French.", "quantifier": "all texts, all pairs of built-in languages, all passphrases, every Unicode database meeting the contract", "why_tests_cant": "Tests parse phrases in the language they were made in; the overlap of ten lists of 2048 words and all texts over it is not enumerated by any test.", "anchors": ["bip0039/words", "bip0039/src/language/mod.rs:115-320", "bip0039/src/mnemonic/mod.rs:310-351", "bip0039/src/mnemonic/mod.rs:407-410"]}
{"id": "C103", "title": "Hashing and ordering of languages and counts under Cargo features", "statement": "In every build, whatever its features, the languages of the build are totally ordered as they stand in the source, so two languages compare alike in all builds that have both. Equal languages, and equal counts, feed equal bytes to a hasher, different ones different bytes, and no such byte string is a prefix of another, on targets of any pointer width and byte order. That the hash of a language is the same in all builds is refuted: Spanish hashes as 9 with all languages and as 1 alone, English as nothing in a build without features.", "quantifier": "all feature selections, pairs and triples of languages and counts, target widths and byte orders, all data hashed afterwards", "why_tests_cant": "A test runs in one build on one target; there are 512 selections of languages.", "anchors": ["bip0039/src/language/mod.rs:118-150", "bip0039/src/mnemonic/mod.rs:34", "bip0039/Cargo.toml:37-63"]}
{"id": "C104", "title": "Keys of different curves, ways of derivation, seeds and paths have different chain codes unless SHA-512 collides", "statement": "Take any two private keys derived by BIP-0032, by SLIP-0010 on secp256k1 or nist256p1, or by SLIP-0010 on ed25519, each from any seed along any path. If their chain codes are equal then curve key and path are equal and the seeds are equal or one is what the search tries after rejecting the other; or the two derivations gave HMAC-SHA512 two different inputs with the same right half, which are named. With SHA-512 in place of HMAC-SHA512: or a chain code was a curve's key followed by zeros, or SHA-512 collides, wholly or in its right half, on two named messages. So one seed gives different keys on different curves.", "quantifier": "all pairs of curves, backends of the curve contract, ways of derivation, seeds, paths, numbers of retry rounds", "why_tests_cant": "Tests compare a few published vectors per curve; no test relates keys of two curves.", "anchors": ["bip0032/src/xkey/slip10.rs:55-270", "bip0032/src/xkey/core/private.rs:32-135", "bip0032/src/curve/ed25519/mod.rs", "bip0032/src/curve/nist256p1/mod.rs", "bip0032/src/curve/secp256k1/mod.rs"]}
{"id": "C105", "title": "What the fuzz targets can and cannot detect", "statement": "For an arbitrary implementation of the functions they call, each of the six fuzz targets passes on all its inputs exactly if a property written without the target holds: parse_path - every path of at most 32 children prints to a text that parses back to it child by child, and every text one to eight edits away parses to something that normalises; derive_path - keys derived from seeds of at most 64 bytes survive print and parse and agree with public derivation; parse_xkey - the same for five private and five public versions, and no parse of a changed payload or text panics; from_entropy, to_seed, from_phrase - the round trips of legal entropies and of accepted phrases and the two negative checks. The targets as written are the instances at this crate. These wrong implementations pass on all inputs: one panicking for nine of the twenty versions, one refusing every seed, one ignoring the seed, one ignoring the path, one panicking on any character outside the edit alphabets, one with a constant mnemonic seed, one reading entropy backwards, one refusing any whitespace but single spaces. One edit changes, deletes or precedes any byte but appends nothing.", "quantifier": "all implementations of the called functions, all fuzzer inputs, any lossy UTF-8 decoding (one keeping ASCII for the alphabets)", "why_tests_cant": "The strength of a test is a statement about all programs it could be run against.", "anchors": ["bip0032/fuzz/fuzz_targets/parse_path.rs:fuzz_target", "bip0032/fuzz/fuzz_targets/derive_path.rs:fuzz_target", "bip0032/fuzz/fuzz_targets/parse_xkey.rs:fuzz_target", "bip0032/fuzz/fuzz_targets/parse_xkey.rs:pick_version", "bip0039/fuzz/fuzz_targets/from_entropy.rs:fuzz_target", "bip0039/fuzz/fuzz_targets/to_seed.rs:fuzz_target", "bip0039/fuzz/fuzz_targets/from_phrase.rs:fuzz_target"]}
{"id": "C106", "title": "Which errors the crates can report", "statement": "Every error returned by a public operation of bip0032 - on child numbers, paths, payloads and extended keys, BIP-0032 and SLIP-0010, over any implementation of the curve traits - has one of 25 combinations of kind, message, names of context entries and presence of a source, and the message alone determines the combination. 22 of them are produced by some input for every backend and lawful library; the other three (master key, private child, public child) need an unlucky HMAC value and are produced over a library with a small group. SLIP-0010 master generation and private derivation never return an error on any curve, so \"slip10 seed retry failed\" is never seen, and SLIP-0010 public derivation only refuses hardened children. In bip0039, for every language meeting the contract, the errors of from_phrase and validate are exactly: a bad count for every number that is not 12, 15, 18, 21 or 24; an unknown word for every NFKD-normal word without whitespace that is not in the list; an invalid checksum. from_normalized_phrase reports the same without the restriction to NFKD. from_entropy reports exactly the bit counts of illegal lengths.", "quantifier": "all inputs of all public operations, all curves (lawful ones for reachability), all languages with the contract", "why_tests_cant": "That an error is never reported, or that no other one is, is a statement about all inputs and all curves.", "anchors": ["bip0032/src/error.rs:Error::new", "bip0032/src/xkey/slip10.rs:new_slip10", "bip0032/src/xkey/payload/mod.rs:from_str", "bip0032/src/path/child.rs:parse_child_component", "bip0039/src/mnemonic/mod.rs:from_phrase"]}
{"id": "C107", "title": "From typed phrase, passphrase and path to the text of the extended key", "statement": "For every built-in language, phrase text, passphrase text, path text, version number below 2^32 and lawful curve library: parsing the phrase, deriving the seed, creating the master key, parsing the path, deriving and printing yields the text t exactly if BIP-0039 and BIP-0032 do - that is, if the words of the NFKD text are lines of the language's word-list file at indices that spell an entropy and its checksum, the PBKDF2 block of the words joined by one space and of \"mnemonic\" followed by the NFKD passphrase is the seed, the path text spells child numbers, the tree below the seed has a node there, and t is the Base58Check text of version, depth (at most 255), parent fingerprint, child number, chain code and key. The same holds for the public text. Whoever holds only the private text of a node under a registered version computes exactly the texts of the nodes below it; whoever holds only the public text computes exactly the public texts of the nodes reached by non-hardened paths.", "quantifier": "all texts, passphrases, paths, languages, version numbers, backends and lawful curve libraries", "why_tests_cant": "Vectors fix a few phrases and paths; the claim is the equivalence of the whole pipeline with the standards for all texts.", "anchors": ["bip0039/src/mnemonic/mod.rs:from_phrase", "bip0039/src/mnemonic/mod.rs:to_seed", "bip0032/src/xkey/core/private.rs:new", "bip0032/src/xkey/core/private.rs:derive_path", "bip0032/src/xkey/core/public.rs:derive_path", "bip0032/src/path/mod.rs:from_str", "bip0032/src/xkey/payload/mod.rs:fmt"]}
{"id": "C108", "title": "From typed phrase, passphrase and path to the text of the SLIP-0010 key", "statement": "For every built-in language, phrase text, passphrase text, path text, version number below 2^32 and lawful curve library with non-hardened children: parsing the phrase, deriving the seed, generating the SLIP-0010 master key, parsing the path, deriving and printing yields the private or public text t exactly if BIP-0039 and SLIP-0010 do - the tree is that of BIP-0032 except that an unusable value of the master key is replaced by the HMAC of that value, and an unusable value of a child by the HMAC of 01, its right half and the child number, until one is usable. The holder of the private text of a node under a registered version computes exactly the texts of the nodes below it, the holder of the public text exactly the public texts of those reached by non-hardened paths. Every BIP-0032 node is the SLIP-0010 node at the same path. For ed25519 the same holds for paths with hardened children only, and each such path leads to exactly one node.", "quantifier": "all texts, passphrases, paths, languages, version numbers, backends and lawful curve libraries", "why_tests_cant": "The retries need HMAC values nobody can produce on the real curves, and the claim is the equivalence of the whole pipeline with the standards for all texts.", "anchors": ["bip0032/src/xkey/slip10.rs:new_slip10", "bip0032/src/xkey/slip10.rs:derive_slip10_path", "bip0039/src/mnemonic/mod.rs:from_phrase", "bip0039/src/mnemonic/mod.rs:to_seed", "bip0032/src/xkey/payload/mod.rs:fmt"]}
{"id": "C109", "title": "The texts of the extended keys on the real curves", "statement": "For secp256k1 with either library, for NIST P-256 and for ed25519, without assumptions about the curve: a typed phrase, passphrase and path give the private or public text t exactly if the standards do, where the public key of a node is the SEC1 compressed form of the n_key-fold sum of the generator under the chord-and-tangent rule on integer coordinates modulo p (ed25519: the RFC 8032 encoding of the multiple of the base point under the Edwards addition law), with the constants p, a, G and n of SEC2 and RFC 8032 written out. This covers BIP-0032 and SLIP-0010.", "quantifier": "all texts, passphrases, paths, languages and version numbers; each of the three curves and four libraries", "why_tests_cant": "Equivalence with the standards for all texts on curves of 2^256 points; the chord-and-tangent definition of multiples cannot be run.", "anchors": ["bip0032/src/xkey/core/private.rs:derive_path", "bip0032/src/xkey/slip10.rs:derive_slip10_path", "bip0032/src/curve/secp256k1/backends/k256.rs:to_public", "bip0032/src/curve/secp256k1/backends/secp256k1.rs:to_public", "bip0032/src/curve/nist256p1/backends/p256.rs:to_public", "bip0032/src/curve/ed25519/backends/ed25519_dalek.rs:to_public"]}
{"id": "C110", "title": "No sequence of calls makes bip0032 panic", "statement": "Consider a program that starts with strings, bytes and integers only and calls the public functions of bip0032 one after another, each on values earlier calls returned, on any of the supported curves and in debug or release builds. No call panics. Every value the program holds is sound: child numbers fit 32 bits, hardened ones are at least 2^31, a key at depth 0 has no parent, a private key is in 1..n-1, a public key is not the identity, and a payload either satisfies the rules of the text format or carries a valid key under the version the caller chose. Conversely, every sound child number, path, payload and secp256k1 key can be got by some further calls, and a NIST P-256 or ed25519 key can be held exactly if it is the key of a node of the tree SLIP-0010 gives some seed.", "quantifier": "all finite sequences of calls with all arguments; every elliptic curve library obeying the group laws; debug and release builds", "why_tests_cant": "The sequences of calls are unbounded and the values of one call are the arguments of later ones; a test tries a few sequences.", "anchors": ["bip0032/src/path/child.rs:from_child_unchecked", "bip0032/src/path/mod.rs:children", "bip0032/src/xkey/payload/mod.rs:from_str", "bip0032/src/xkey/core/private.rs:encode_with_unchecked", "bip0032/src/xkey/core/public.rs:encode_with_unchecked", "bip0032/src/xkey/core/private.rs:try_from", "bip0032/src/xkey/core/public.rs:try_from", "bip0032/src/xkey/slip10.rs:derive_slip10_path", "bip0032/src/xkey/slip10.rs:new_slip10"]}
{"id": "C111", "title": "The text of the encoder and decoder computes BIP-0039", "statement": "Read the texts of bit_accumulator.rs, entropy.rs, phrase.rs and of Count in mnemonic/mod.rs as programs, and run them by a definition of what the Rust constructs in them do (integers of given width that panic or wrap on overflow, variables, blocks, loops, closures, match, ?, &mut). For debug and release builds and 32- and 64-bit usize: encode_entropy_with returns the phrase BIP-0039 assigns to the entropy, BadEntropyBitCount for other lengths, and panics only if eight times the length overflows usize in a debug build. decode_phrase_with returns exactly the documented outcome for every text, both modes and every table of words, and never panics. The bit accumulator is a queue of bits. Count's functions are the table of BIP-0039. Arguments are left unchanged, loops end after at most 300 rounds and calls nest at most four deep.", "quantifier": "all entropies, all texts, all word tables, both modes, all sequences of accumulator operations, all valid builds", "why_tests_cant": "The claim is about every input of the functions as they are written, not about runs on some inputs.", "anchors": ["bip0039/src/mnemonic/entropy.rs:encode_entropy_with", "bip0039/src/mnemonic/phrase.rs:decode_phrase_with", "bip0039/src/mnemonic/phrase.rs:push_index", "bip0039/src/mnemonic/phrase.rs:finish", "bip0039/src/mnemonic/bit_accumulator.rs:push_bits", "bip0039/src/mnemonic/bit_accumulator.rs:take_bits", "bip0039/src/mnemonic/mod.rs:from_word_count", "bip0039/src/mnemonic/mod.rs:from_key_size"]}
{"id": "C112", "title": "The text of the derivation-path code computes the path grammar", "statement": "Read the texts of path/child.rs, path/mod.rs and of the error constructors in error.rs of bip0032 as programs and run them by the same definition of Rust as in C111. For debug and release builds and every usize width that can hold the text: ChildNumber::from_str and DerivationPath::from_str accept exactly the grammar, with the value it gives and the documented errors otherwise; new, index, is_hardened and is_normal are the 31-bit split of a child number; Display of a path writes the text that parses back to it; HardenedDerivationPath::try_from accepts exactly the paths with all components hardened. None of these panics, and arguments are left unchanged.", "quantifier": "all texts, all paths, all child numbers, all valid builds", "why_tests_cant": "The claim is about every input of the functions as they are written, not about runs on some inputs.", "anchors": ["bip0032/src/path/child.rs:from_str", "bip0032/src/path/child.rs:new", "bip0032/src/path/child.rs:index", "bip0032/src/path/mod.rs:from_str", "bip0032/src/path/mod.rs:try_from", "bip0032/src/path/mod.rs:fmt"]}
{"id": "C113", "title": "The RIPEMD-160 of the fingerprints is the published function", "statement": "For every message the RIPEMD-160 of the model equals the function as its authors define it: the unique padding, eighty numbered steps in two lines with message words selected by the permutations rho and pi, shifts by message word, constants that are the integer parts of 2^30 times the square and cube roots of the first four primes, additions modulo 2^32, words and result with the low byte first. Such constants exist and are unique.", "quantifier": "all messages", "why_tests_cant": "Test vectors exercise a few messages; a fingerprint is the hash of any public key.", "anchors": ["bip0032/src/xkey/core/mod.rs:key_fingerprint"]}
{"id": "C114", "title": "The error and word-count texts are those of the source", "statement": "Read the texts of the Display implementations of bip0039's Error and Count and of bip0032's ErrorKind as programs and run them by the definition of Rust of C111: for every value, in debug and release builds, each succeeds, leaves its receiver unchanged and appends to the formatter exactly the text the model gives, which is also spelled out.", "quantifier": "all errors, kinds and word counts, all valid builds, all texts already in the formatter", "why_tests_cant": "The numbers and words in the messages are arbitrary.", "anchors": ["bip0039/src/error.rs:fmt", "bip0039/src/mnemonic/mod.rs:fmt", "bip0032/src/error.rs:fmt"]}
