# Design: a Rocq model of koushiro/rust-bips (bip0039 and bip0032)

The code is two Rust crates: `bip0039` (mnemonics) and `bip0032` (HD keys, with
the optional SLIP-0010 extension).  Both are almost entirely pure functions over
byte strings, Unicode strings and fixed-size records, so the model is a set of
total, executable Gallina functions, one per Rust function, each citing the file
and lines it models.

## 1. Representation choices

| Rust | Gallina | remarks |
| --- | --- | --- |
| `u8`, `&[u8]`, `Vec<u8>` | `Byte.byte`, `list byte` | the 0..255 bound is in the type |
| `[u8; n]` | `list byte` with the length in a well-formedness predicate | the predicate is the Rust type's guarantee, nothing more |
| `u32`, `u64`, `usize` | `N` with explicit wrap / overflow panic where the code can overflow | `usize` width and debug/release are parameters (`build`, `profile`) |
| `char`, `str` | `N` (code point), `list N` | UTF-8 is modelled and used wherever the code takes bytes or byte lengths |
| `Result` plus panics | `res E A := Ok a \| Err e \| Panic` | debug assertions, index and slice bounds, integer overflow and `expect` are explicit `Panic`s |
| unbounded `loop` (SLIP-0010) | fuelled iteration, `None` = still running | theorems quantify over every fuel and relate the runs to a fuel-free relation |
| SHA-256, SHA-512, HMAC, PBKDF2, RIPEMD-160, Base58Check | concrete executable definitions | checked on published vectors; proofs use their output length only, except C113, which is about RIPEMD-160 itself |
| NFKD (`unicode-normalization`) | the crate's algorithm over a data record `ucd` | theorems hold for all data satisfying `ucd_ok`/`ucd_std`; Unicode 15.0 (`ucd15`) is proved to be an instance |
| elliptic-curve crates | record `ECLib` of operations, laws `ec_laws` | `Secp256k1` and `Nist256p1` are concrete instances whose laws are proved (C55) |
| ed25519-dalek | record `EdLib`, laws `ed_laws` | `Ed25519Dalek` is a concrete instance on edwards25519 whose laws are proved (C63, C64) |
| RNG | a function argument | |

`&mut self` methods return the new value; drop code is a value transformer.

## 2. Files (rocq/theories)

* Foundations: `Base` (results, bytes, lists), `Str` (strings, UTF-8, whitespace,
  decimal and hex formatting), `Sha2` (SHA-2, HMAC, PBKDF2), `Ripemd`, `Unicode`,
  `UnicodeTables` (generated).
* bip0039 model: `BitAcc`, `Language39`, `Mnemonic39`, `BuildScript39` (build.rs,
  reading), `Generate39` (build.rs, writing and language selection; Cargo features),
  `Words_*` (the files of `/repo/bip0039/words`, generated), `Builtin39`,
  `Compare39` (comparison operators), `Hash39` (hashes and orders under features), `Memory39` (heap buffers and what they contain when
  they are released), `Locals39` (last values of local variables).
* bip0039 specifications: `Spec39`, `LangSpec39`, `QueueSpec39`, `GenSpec39` (syntax of the
  generated sources, faults of word files, Cargo's feature rules).
* bip0039 proofs: `UnicodeProofs`, `BitsProofs`, `StrProofs`, `EncProofs`, `DecProofs`,
  `Utf8Proofs`, `LangProofs`, `MnemonicProofs`, `ChecksumProofs`, `ExtraProofs39`,
  `GenProofs39`, `MemProofs39`.
* bip0032 model: `Error32`, `Path32`, `Version32`, `Base58`, `Meta32`, `Payload32`,
  `Curve32` (traits, libraries, backends), `XKey32` (extended keys), `Slip10`, `Stream`
  (incremental hashing), `Memory32` (heap buffers and what they contain when they are released),
  `Traits32` (Cargo features, trait impls and `where` clauses), `Derive32` (derived comparison and
  `Default`), `Locals32` (local variables and what they hold when their storage ends),
  `Once32` (threads sharing the libsecp256k1 contexts, weak memory), with `OnceProofs32`,
  `Session32` (programs calling the public functions on held values).
* Both crates: `FmtDebug` (the builders of core::fmt), `DebugImpls` (derived `Debug`), with `FmtProofs`.
* bip0032 specifications: `PathSpec32`, `Base58Spec`, `PayloadSpec32`, `XKeySpec32`.
* bip0032 proofs: `PathProofs32`, `Base58Proofs`, `PayloadProofs32`, `XKeyProofs32`,
  `SlipProofs32`; `Cyclic32` has small library instances used in examples.
* Curves: `Weierstrass` (group law of short Weierstrass curves over any field),
  `Primes` (Pocklington's criterion, modular multiplication), `PrimeCerts` (generated
  certificates for the four primes), `Fp`, `ShortCurve`, `CurveCert` (checking scalar
  multiples from precomputed slopes), `Secp256k1`, `Nist256p1` (generated tables),
  `CurveSpec`, `CurveProofs`; `Edwards` (complete twisted Edwards law over any field),
  `PrimeCertsEd`, `EdCurve` (points, encoding, square roots), `EdCert`, `Ed25519` (generated
  table and order proof), `Dalek25519` (the `EdLib` instance), `EdSpec` (the curve in
  integers).
* Fuzz targets of both crates: `Fuzz39`, `Fuzz32`; a failing assertion is a `Panic`;
  `FuzzApi` has them over an arbitrary implementation of what they call.  Benchmarks and
  tests/generate.rs likewise: `Bench39`, `Bench32`.
* Error objects and their causes: `ErrorChain32`.  Accessors and clones of extended keys: `Access32`.
* Branches, table reads, lookups and hashes of encoding and decoding, in order: `Trace39`; branches
  and library calls of key derivation: `Trace32`.
* The text itself: `RustSource` (copies of bit_accumulator.rs, entropy.rs, phrase.rs and lines 29-149 of
  mnemonic/mod.rs), `RustSyntax` (a reader of Rust), `RustEval` (an evaluator of what it reads), `RustExec`
  (tactics that run it symbolically), `SourceProofs` to `SourceProofs4`.  `RustSource32` (copies of bip0032's
  path/child.rs and path/mod.rs without tests, and lines 88-134 of error.rs), `SourcePath`, `SourcePath2`.
* Property theorems, each followed by `Print Assumptions` and a concrete case:
  `Props39` (C01-C21), `Props32` (C22-C32, C52, C53), `Props32k` (C33-C48),
  `Props32s` (C49-C51, C54), `Props32c` (C55, C56), `Props39f` (C57, C58, C62),
  `Props32f` (C59-C61), `Props32e` (C63, C64), `Props32x` (C65, C66), `Props32y` (C75, C76),
  `Props3932` (C67), `Props39u` (C68), `Props39e` (C69, edges of C02, C07 and C20),
  `Props39g` (C70-C72), `Props32d` (C73), `Props39q` (C74), `Props39m` (C77-C79),
  `Props32r` (C80-C82), `Props32m` (C83, C84),
  `Props32h` (C85-C87, with `StreamProofs`), `Props32t` (C88, C89),
  `Props32p` (C90), `Props32b` (C91), `Props32v` (C92), `Props32l` (C93),
  `Props32o` (C94), `Props39l` (C95), `Props39r` (C96), `PropsBench` (C97), `Props39t` (C98), `Props32w` (C99),
  `Props32z` (C100), `Props32a` (C101), `Props39a` (C102), `Props39h` (C103), `Props32q` (C104), `Props32n` (C40, C43 and C56 for SLIP-0010 paths),
  `PropsFuzz` and `PropsFuzzb` (C105),
  `PropsErr` (C106), `PropsWallet` (C107),
  `PropsWallet10` (C108), `PropsWalletR` (C109), `PropsSession` (C110), `PropsSource` (C111),
  `PropsSource32` (C112), `PropsRipemd` (C113), `PropsSourceErr` (C114, with the texts in `RustSourceErr`).
* Tests of the model: `Vectors39`, `VectorSeed39`, `VectorsWords39` (the word-list checksums
  pinned by the repository's tests), `Vectors32` with `PointCerts`,
  `VectorsEd32`, `UnitTests` (unit tests and documentation examples of both crates, on the model).
  `Eqb39`/`Eqb32` decide equality of results so that the checks are fast in coqchk.

## 3. Approach per property

Numbers refer to `properties.jsonl`; theorem names start with the number.

| Id | Approach |
| --- | --- |
| C01, C03, C04, C12, C20 | the accumulator refines a bit queue; encoder and decoder equal bit-string specifications that are inverse |
| C02 | case analysis; false for a wrapping `usize` (`C02_wrapping_refuted`) |
| C05, C06 | equality of the decoder with a declarative outcome relation in both modes |
| C07-C09, C15 | idempotence of NFKD; the decoder depends on the words only |
| C10, C21 | equality of the two APIs |
| C11 | no run returns `Panic` |
| C13 | counting over the last index |
| C14 | PBKDF2 stated as the RFC 8018 xor of iterates |
| C16, C17 | all numbers; any RNG |
| C18, C19 | build script equals a declarative predicate; the ten files checked by computation |
| C22-C26 | arithmetic; parser and printer induction; grammar as an inductive predicate |
| C27, C53 | all 32-bit values |
| C28-C32 | numeral-system correctness of the Base58 carry loops; exact acceptance condition |
| C33-C35, C54 | from C28-C30 and the library laws |
| C36-C43 | an independent BIP-0032 specification; induction over paths |
| C44 | both backends refine the same specification; the zero tweak is refuted |
| C45-C49 | fuel against a retry relation |
| C50 | two-run theorems over kind, message and context |
| C51 | what drop leaves does not depend on the secret |
| C52 | builder and `Display` |
| C55, C56 | group law proved over any field, primes certified, order certified by an addition chain |
| C63, C64 | Edwards group law over any field, order of the base point certified, square roots modulo 2^255-19 |
| C65, C67 | induction on the last step of both paths; the inputs of the last HMAC differ or the shorter paths agree |
| C66 | induction on the path with the private/public commutation of C38 |
| C68 | insertion sort is a sequence of exchanges, `reorder` is invariant under them and fixes ordered strings |
| C69 | prefixes of the messages differ, decimal numerals are injective |
| C70 | induction on the lines with the accumulated line number |
| C71 | every construct of the generated text is prefix-free, so the text has one reading |
| C72 | induction over the language table; Cargo's closure of the requested features |
| C73 | reading the text line by line; false for paths with line feeds (`C73_forged_refuted`) |
| C74 | handles are addresses in an arbitrary program image |
| C75 | like C65 with a second induction on the rounds of the SLIP-0010 searches |
| C76 | like C66; the accepted tweak of a search is found from public data |
| C77-C79 | released blocks are part of the result; the buffer's room against the lengths of all list words |
| C80-C82 | exclusive descriptions of each fault, equivalent to the error returned |
| C83, C84 | like C77; blocks keep what was ever written to them, so cleared vectors are seen |
| C85 | invariant: blocks absorbed so far and bytes waiting are a cut of the input |
| C88, C89 | impls as an inductive relation over types, inverted; downstream impls are a parameter |
| C90 | equality from the printing and parsing theorems |
| C91 | a reader of the output that is unique; pretty output is the plain one with layout removed |
| C92 | the 82-byte number lies in an interval on which length and top digits are constant |
| C93 | each function also returns the places whose storage ended and their bytes; the results are those of `XKey32` |
| C94 | invariant over all interleavings: phase of each cell, what each thread knows; blinding by the group laws |
| C96 | counting over the list of all outcomes of the random source; a uniform source is the assumption |
| C95 | each function also returns the last value of its variables; the results are those of `Mnemonic39` |
| C104 | every tree is a sequence of searches (`chained`); induction over two such sequences from their ends |
| C105 | each run unfolds to a conjunction; surjectivity of the decoders (bytes spell any path, a window spells any edits); wrong implementations by rewriting the conjunction |
| C106 | case analysis of every operation over an arbitrary curve record; one witness per row; words of NFKD text are NFKD |
| C107 | BIP-0039 and BIP-0032 as relations (file, words, bits, PBKDF2 block, tree node, Base58Check text); each step of the crates is an iff with one step of the relation |
| C108 | SLIP-0010 as a relation with retries written as the first good value of a chain; the same iff step by step, fuel is monotone |
| C109 | C107/C108 on the curves of C55/C63; multiples by chord and tangent on integers, which determine the sum (`chord_tangent_fun`) |
| C110 | Invariant `sound` over sessions of calls (`Session32`); converses by parsing the texts of the values, and for the curves of SLIP-0010 by the trees of C108 |
| C111 | Symbolic execution of the parsed text by tactics, loops by induction; each function of the text equals its model, the standard from C03 and C05 |
| C112 | As C111: each function of the text equals its model; grammar, display and round trip from the theorems on the model |
| C113 | The tables are the powers of rho and pi by computation; constants unique by monotonicity of powers; blocks and words as indices into the padding |
| C114 | As C111: the text of each Display function, run on a value of each constructor, appends the text of the model |
| C103 | the variants of a build are a filter of the list of all; positions in it |
| C102 | every word of every list looked up in every other list, by computation; then the indices of accepted texts |
| C101 | the 78 bytes of C30 split at the field boundaries; induction over the path |
| C100 | induction over the path and over the rounds; the rounds are those of C45 and C46 |
| C99 | the sources of each operation's errors from C80-C82, then the conversions |
| C98 | two runs are compared step by step; addresses are related to the indices of the specification |
| C97 | from the round-trip theorems; panics characterised by C36 and C42 along the path |
| C86, C87 | the classical reductions, with the colliding inputs named |
| C57-C61 | the fuzz targets run on every input, from the round-trip and totality theorems |
| C62 | normalisation commutes with splitting at whitespace |

## 4. Trusted base

* Coq 8.16.1's kernel including its VM (`vm_compute`, `vm_cast_no_check` casts are
  re-checked by the kernel at `Qed`, and by `coqchk`).
* Axioms: none.  `Print Assumptions` after every theorem prints
  "Closed under the global context".  The field identities are proved with `nsatz`, whose
  standard-library module loads the real numbers, so `coqchk -o` lists the axioms of
  `Reals`, functional extensionality and ssreflect's `Under_rel`; no theorem uses them.
* The fidelity of the model to the Rust text, read by hand; the test vectors of the
  repository are run through the model as a check on it.  For the functions of C111 this is a theorem
  instead: the model equals the text under `RustEval`.  What is then trusted is that `RustSource` is a copy
  of the files, that `RustSyntax` reads them as rustc does, and that `RustEval` says what the constructs and the
  library functions called (`builtin_fn`, `builtin_method`: `Vec`, `String`, slices, `Sha256::digest`,
  `split_whitespace`, integer methods) do.  The reader passes over attributes (so `#[cfg]` outside the `use`
  lines must not matter; it does not in these files), generics and tests; the evaluator ignores types except of
  integers.  For C112 the same holds of `RustSource32`, with more library functions (`split`,
  `strip_prefix`, `strip_suffix`, `parse::<u32>`, `write!`, iterator methods as functions on lists, the derived
  `Default`); `parse()` without a type is taken as `parse::<ChildNumber>()`, which inference gives there.
* The generated data files: word lists are generated from the repository, and their SHA-256
  sums are those pinned by the repository's tests; Unicode tables come from Python's `unicodedata` 15.0.  Curve and prime
  certificates are not trusted, they are checked.

Modelled from documentation instead of source, because the dependency is not in the
sandbox:

* `unicode-normalization`: algorithm as published, data any `ucd` meeting the laws.
* `bs58` with checksum: `Base58.v`, including its error order.
* `k256`, `p256`, `secp256k1` (libsecp256k1): accept/reject behaviour of the functions
  the backends call, over `ECLib`.  Constant time, blinding and memory are not modelled.
* `ed25519-dalek`: `EdLib` (secret to public, decompression) with `ed_laws`; the instance
  `Ed25519Dalek strict` clamps, reduces, multiplies and compresses as RFC 8032 and the
  crate's documentation say.  Whether the crate refuses non-canonical encodings has changed
  between versions, so `strict` is a parameter of the theorems.  Signing is not used by the
  code and not modelled.
* `phf`: a map from word to index, consistent with the generated source.
* `hmac`, `sha2`, `pbkdf2`, `ripemd`: standard definitions; for the first three C85 relates them to the
  incremental code (`Stream`, after the published crates, with unbounded counters).
* rustc and `phf_map!` on the generated sources: the syntax of `GenSpec39.v`, with any set
  of characters escaped by `{:?}` as `\u{..}`.  Reading and writing files is a function from
  names to bytes and a list of written files.
* Cargo: requested features are closed under the feature table and passed to build.rs as
  `CARGO_FEATURE_*` variables.
* `String`, `Vec`, `Cow` and the allocator in `Memory39`: a buffer has a capacity and bytes; when it
  must grow, an arbitrary `allocator` picks the new capacity and whether the block moves; dropping
  releases the block as it is, dropping a `Zeroizing` buffer releases zeros over the full capacity.
  `nfkd().to_string()` pushes one character at a time.  The stack and buffers inside the hashing and
  normalisation crates are not followed.  `Memory32` also keeps bytes beyond the length of a cleared or
  truncated vector, and takes from bs58's source that its `String` target resizes, encodes, truncates.
* `std::sync::OnceLock`: std's futex `Once` without parking; Acquire loads, compare-exchange and Release
  stores over a history of values.  Blinding of libsecp256k1's signing context as in its sources.
* `anyhow`: an error is a text and a cause, `msg` has no cause, conversion keeps the object; its
  `Debug` report and backtraces are not modelled.
* `const-hex`, `core::fmt`, integer parsing of `core`: the documented behaviour.

Not modelled: derived `Clone` impls except those of C101, name resolution and type checking by rustc beyond the
trait obligations of `Traits32`, the benchmarks of other crates and criterion, how `arbitrary` builds a fuzz input from bytes, machine code (copies made by moves, spilled
registers, `zeroize` removed or kept by the optimiser), and local variables of the dependencies.
`Locals32` and `Locals39` follow the variables and named temporaries at source level: plain arrays and
numbers stay as they are, `Zeroizing` ones hold zeros; a variable of a loop is one place.
`Trace39` records events at source level: every `if`, `while`, `for` and `match` whose outcome depends on
an argument, every index into the word list, every word looked up, every hash with its length.  What
`phf`, SHA-256 and `String` do inside, and what a compiler makes of the branches, is not in it.

## 5. Findings in the code

1. `Count::from_key_size` multiplies the length by 8; in a release build with a 32-bit
   `usize` an entropy of 2^29 + 16 bytes is taken for 128 bits (`C02_wrapping_refuted`).
2. k256 and p256 reject a zero tweak (`NonZeroScalar`), libsecp256k1 and BIP-0032 accept
   it, so the two secp256k1 backends disagree (`C44_zero_tweak_refuted`).
3. The path parser accepts `+5` and leading zeros, via `u32::from_str` (part of the
   grammar of C24).
4. Depth saturates at 255 without an error (C40).
5. `ExtendedKeyPayload` can be built with a version kind that contradicts the key bytes;
   it then prints but does not parse (`C28_wrong_kind_refuted`).
6. build.rs checks neither inner whitespace nor NFKD of the words (C19).
7. A line ending in CR CR LF loses both CRs (`C19_single_cr_refuted`).
8. `take_bits(0)` is outside the queue contract (`C20_take_zero_refuted`).
9. The source of a Base58 error tells a checksum failure from a bad character, and path
   derivation errors tell which step failed (`C50_path_errors`); kind, message and
   context of a single step reveal nothing about key bytes (C50).
10. The `seed.is_empty()` branch of `new_slip10` is dead code (C45).
11. SEC1 tag 05 (compact) may be accepted by the RustCrypto crates but not by
    libsecp256k1; theorems take that decoder as an arbitrary parameter and C44 excludes it.
12. The path parser stores the path in the error as it is, so the `Debug` text of an error for a
    path with line feeds can look like that of another error (`C73_forged_refuted`).
13. `AnyLanguage` compares function addresses, which Rust does not promise to be unique: two handles
    of one language may differ (`C74_handles_refuted`); equal handles do behave alike (C74).
14. `new_slip10` has no domain separation between a seed and a rejected candidate: the candidate, used
    as a seed, has the same master key (`C75_retried_seed`).  This is how SLIP-0010 defines it.
15. The phrase buffer is created with eight bytes a word.  Japanese and Korean words are longer, so it
    always grows, and a `String` that moves leaves the first words of the secret phrase in freed
    memory (`C77_long`); French, Italian and Spanish phrases can do the same (`C77_medium`).
16. Only the finished mnemonic is `Zeroizing`: `validate` frees the decoded entropy as it is, failing
    parses free the typed words and the decoded entropy, normalised copies and owned arguments are freed
    as they are (C78), and `to_seed` frees the salt with the passphrase (C79).
17. `new_slip10` copies the seed to a plain `Vec` that is freed as it is (C83).
18. The `Display` of an extended key wipes the serialised bytes but frees the Base58 text, from which
    the private key parses back, as it is (C84).
19. HMAC pads keys with zeros, so the master key text "Bitcoin seed" and the chain code made of it and
    20 zeros are one key: BIP-0032 separates master and child derivation only by the improbability of
    that chain code (C87).
20. `CurveError::new` has weaker bounds without the feature `std` than with it, so `std` is not additive
    (`C89_curve_error_refuted`).
21. `ExtendedPrivateKey::new` exists for nist256p1 and ed25519 too, where only the SLIP-0010 rule is
    defined (`C88_new_everywhere`); SLIP-0010 keys on secp256k1 can be serialised although the table in
    SLIP-0010.md says no (`C88_matrix`), because the key type is shared.
22. The numbers next to a registered version print with its prefix: a text starting with `xpub` can
    have an unknown version (`C92_prefix_decides_refuted`).
23. Arrays are `Copy`, so `let left = Zeroizing::new(left)` wipes a copy: the shadowed array keeps the
    master key or the left half of the HMAC output.  The temporary of `to_bytes()` keeps the parent key
    in hardened derivation and encoding, the scalar `child` of the k256 and p256 backends keeps the
    child key, `key_data` and `out` keep the key of every text read or written
    (`C93_private_keys_left`, `C93_no_key_left_refuted`).
24. The ed25519 backend relies on ed25519-dalek for wiping keys, but its Cargo entry takes
    `default-features = false, features = ["alloc"]`, without the crate's feature `zeroize`
    (`C93_dalek`).
25. `generate` draws the entropy into a plain array and passes a copy on; the array keeps the entropy
    after the mnemonic was dropped and wiped (`C95_generate`, `C95_array_wiped_refuted`).
26. `encode` reads the word list at the secret indices, so that an observer of addresses learns the whole
    entropy (`C98_addresses`, `C98_constant_addresses_refuted`); its branches reveal only the length.
27. `CurveError` both displays its source and returns it from `source()`, so every report of an error of a
    curve prints the library's text twice (`C99_chain`, `C99_no_repetition_refuted`).
28. Depth and child number of an extended key cannot be asked for; keys that differ in them have equal
    accessors and different strings (`C101_complete_refuted`).
29. A phrase of words that English and French share can be valid in both and stand for two different
    entropies, though its seed is the same (`C102_two_languages`, `C102_one_entropy_refuted`).
30. The discriminant, and so the hash, of a `BuiltInLanguage` depends on the features of the build; stored
    hashes of it do not survive a change of features (`C103_stable_hash_refuted`).
31. `parse_xkey` takes the index and the kind of a version from the same selector byte (`selector % 10` and
    `selector & 1`), so it prints private keys only with the versions of even index and public keys only
    with those of odd index; with `derive_path` nine of the twenty versions are never tried
    (`C105_parse_xkey`, `C105_undetected_versions`).
32. The fuzz targets compare results only with each other: implementations that refuse every seed, ignore
    the seed or the path, read entropy backwards, return a constant mnemonic seed or refuse the very whitespace
    that `make_whitespace_mess` produces pass on all inputs (`C105_undetected_*`).  The edits of
    `mutate_path` and `mutate_base58` never append a byte in one step (`C105_no_append`).
33. The error of slip10.rs 81-85 ("slip10 seed retry failed") can never be returned: the seed it tests for
    emptiness has 64 bytes (`C106_slip10_never_fails`).  The length test of `parse_payload` (payload/mod.rs
    107-112) repeats that of its caller.
34. A public key encoded with a private version by `encode_with_unchecked` converts to the private key
    whose number is the x-coordinate, without an error (`C110_case`).

## Wrong programs

`seeded/LOG.jsonl` has one line per edit of the model or of the copied texts.  Lines that start with "automatic" come
from a script that makes one small edit (an operator, a constant, a literal, a condition, a swap) and rebuilds the
dependent files up to the first failure, on the commit current at the time; edits that do not type-check are left out.
Of these 1429 edits 1301 stop a proof, 112 survive and 16 ran out of time.  A stopped proof is named; it does not by itself
show that the statement became false, since a script can also break on an equivalent program.  The survivors of
RIPEMD-160, of the displayed texts and of the debug names led to C113, C114 and C91_names.  Of the other survivors
most are in the fuzzing harnesses, whose theorems only exclude panics and failed assertions, and in the numbering of
trace events; those marked "not analysed further" have not been examined one by one.
