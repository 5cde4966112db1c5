{
 "claims": [
  {
   "property": "C01",
   "status": "proved",
   "theorems": [
    "C01_entropy_roundtrip",
    "C01_entropy_roundtrip_custom"
   ],
   "note": "For the ten built-in lists under any Unicode data satisfying ucd_std (Unicode 15.0 is an instance); _custom for every language meeting the documented contract."
  },
  {
   "property": "C02",
   "status": "proved",
   "theorems": [
    "C02_legal_sizes",
    "C02_wrapping_refuted",
    "C02_overflow"
   ],
   "note": "Proved under the statement's guard that the bit count fits usize; C02_wrapping_refuted shows a 32-bit release build accepts 2^29+16 bytes."
  },
  {
   "property": "C03",
   "status": "proved",
   "theorems": [
    "C03_phrase_is_bip39",
    "C03_indices_unique"
   ],
   "note": ""
  },
  {
   "property": "C04",
   "status": "proved",
   "theorems": [
    "C04_canonical",
    "C04_phrase_function_of_entropy"
   ],
   "note": ""
  },
  {
   "property": "C05",
   "status": "proved",
   "theorems": [
    "C05_acceptance",
    "C05_outcome_unique"
   ],
   "note": "For every language, also ones violating the contract."
  },
  {
   "property": "C06",
   "status": "proved",
   "theorems": [
    "C06_validate_agrees",
    "C06_validate_agrees_any"
   ],
   "note": ""
  },
  {
   "property": "C07",
   "status": "proved",
   "theorems": [
    "C07_nfkd_only",
    "C07_words_only",
    "C07_separators"
   ],
   "note": ""
  },
  {
   "property": "C08",
   "status": "proved",
   "theorems": [
    "C08_phrase_normalised"
   ],
   "note": "Over every mnemonic built by from_entropy, generate, from_phrase, FromStr, from_normalized_phrase; from_entropy under the usize guard of C02."
  },
  {
   "property": "C09",
   "status": "proved",
   "theorems": [
    "C09_reparse"
   ],
   "note": ""
  },
  {
   "property": "C10",
   "status": "proved",
   "theorems": [
    "C10_any_agrees"
   ],
   "note": "Handle equality is equality of the two stored functions; pointer comparison is not modelled."
  },
  {
   "property": "C11",
   "status": "proved",
   "theorems": [
    "C11_no_panic"
   ],
   "note": "Custom languages: word_of must be defined below 2048; index_of is arbitrary."
  },
  {
   "property": "C12",
   "status": "proved",
   "theorems": [
    "C12_injective"
   ],
   "note": ""
  },
  {
   "property": "C13",
   "status": "proved",
   "theorems": [
    "C13_checksum_swap",
    "C13_last_word_count"
   ],
   "note": ""
  },
  {
   "property": "C14",
   "status": "proved",
   "theorems": [
    "C14_seed",
    "C14_seed_nfkd",
    "C14_seed_length"
   ],
   "note": "PBKDF2 stated as the RFC 8018 xor of iterates over the HMAC-SHA512 of Sha2.v."
  },
  {
   "property": "C15",
   "status": "proved",
   "theorems": [
    "C15_seed_origin"
   ],
   "note": ""
  },
  {
   "property": "C16",
   "status": "proved",
   "theorems": [
    "C16_counts",
    "C16_try_from"
   ],
   "note": ""
  },
  {
   "property": "C17",
   "status": "proved",
   "theorems": [
    "C17_generate"
   ],
   "note": "The RNG is an arbitrary function filling n bytes."
  },
  {
   "property": "C18",
   "status": "proved",
   "theorems": [
    "C18_builtin_lists",
    "C18_generated"
   ],
   "note": "Words are those of the files in the repository, via the model of build.rs."
  },
  {
   "property": "C19",
   "status": "proved",
   "theorems": [
    "C19_build_script",
    "C19_index_map",
    "C19_reports_errors",
    "C19_single_cr_refuted"
   ],
   "note": "The generated Rust literal is taken to denote the word; C19_single_cr_refuted records that CR CR LF loses both CRs."
  },
  {
   "property": "C20",
   "status": "proved",
   "theorems": [
    "C20_bit_queue",
    "C20_take_zero_refuted",
    "C20_panics"
   ],
   "note": "C20_take_zero_refuted records the excluded corner case."
  },
  {
   "property": "C21",
   "status": "proved",
   "theorems": [
    "C21_accessors",
    "C21_accessors_any",
    "C21_converted"
   ],
   "note": "Cloning is the identity on values."
  },
  {
   "property": "C22",
   "status": "proved",
   "theorems": [
    "C22_child_numbers"
   ],
   "note": ""
  },
  {
   "property": "C23",
   "status": "proved",
   "theorems": [
    "C23_display_parses"
   ],
   "note": ""
  },
  {
   "property": "C24",
   "status": "proved",
   "theorems": [
    "C24_path_grammar"
   ],
   "note": ""
  },
  {
   "property": "C25",
   "status": "proved",
   "theorems": [
    "C25_parsing_normalises"
   ],
   "note": ""
  },
  {
   "property": "C26",
   "status": "proved",
   "theorems": [
    "C26_hardened_types"
   ],
   "note": ""
  },
  {
   "property": "C27",
   "status": "proved",
   "theorems": [
    "C27_known_versions"
   ],
   "note": ""
  },
  {
   "property": "C28",
   "status": "proved",
   "theorems": [
    "C28_payload_roundtrip",
    "C28_wrong_kind_refuted"
   ],
   "note": "C28_wrong_kind_refuted: a payload whose version kind contradicts its key bytes prints but does not parse back."
  },
  {
   "property": "C29",
   "status": "proved",
   "theorems": [
    "C29_canonical_strings"
   ],
   "note": ""
  },
  {
   "property": "C30",
   "status": "proved",
   "theorems": [
    "C30_acceptance",
    "C30_rejection"
   ],
   "note": ""
  },
  {
   "property": "C31",
   "status": "proved",
   "theorems": [
    "C31_fits_and_total"
   ],
   "note": ""
  },
  {
   "property": "C32",
   "status": "proved",
   "theorems": [
    "C32_base58check_roundtrip"
   ],
   "note": ""
  },
  {
   "property": "C33",
   "status": "proved",
   "theorems": [
    "C33_private_roundtrip"
   ],
   "note": "For every elliptic-curve library satisfying ec_laws; C55 proves them for the real curves."
  },
  {
   "property": "C34",
   "status": "proved",
   "theorems": [
    "C34_public_roundtrip"
   ],
   "note": "As C33."
  },
  {
   "property": "C35",
   "status": "proved",
   "theorems": [
    "C35_kinds_not_confused"
   ],
   "note": ""
  },
  {
   "property": "C36",
   "status": "proved",
   "theorems": [
    "C36_ckd_priv"
   ],
   "note": "As C33; the k256 and p256 crates reject IL = 0, see C44_zero_tweak_refuted."
  },
  {
   "property": "C37",
   "status": "proved",
   "theorems": [
    "C37_ckd_pub"
   ],
   "note": ""
  },
  {
   "property": "C38",
   "status": "proved",
   "theorems": [
    "C38_neuter_commutes"
   ],
   "note": ""
  },
  {
   "property": "C39",
   "status": "proved",
   "theorems": [
    "C39_path_composition",
    "C39_hardened_path_composition"
   ],
   "note": ""
  },
  {
   "property": "C40",
   "status": "proved",
   "theorems": [
    "C40_derived_metadata",
    "C40_slip10_paths",
    "C40_ed25519_paths"
   ],
   "note": ""
  },
  {
   "property": "C41",
   "status": "proved",
   "theorems": [
    "C41_no_hardened_public"
   ],
   "note": ""
  },
  {
   "property": "C42",
   "status": "proved",
   "theorems": [
    "C42_master_key"
   ],
   "note": ""
  },
  {
   "property": "C43",
   "status": "proved",
   "theorems": [
    "C43_reachable_keys_export",
    "C43_slip10_export"
   ],
   "note": ""
  },
  {
   "property": "C44",
   "status": "proved",
   "theorems": [
    "C44_backends_agree",
    "C44_zero_tweak_refuted"
   ],
   "note": "Compact points (tag 05) excluded; C44_zero_tweak_refuted exhibits the disagreement on a zero tweak."
  },
  {
   "property": "C45",
   "status": "proved",
   "theorems": [
    "C45_slip10_master"
   ],
   "note": "The unbounded loop is fuelled; None means still running."
  },
  {
   "property": "C46",
   "status": "proved",
   "theorems": [
    "C46_slip10_child",
    "C46_slip10_hardened_child"
   ],
   "note": ""
  },
  {
   "property": "C47",
   "status": "proved",
   "theorems": [
    "C47_slip10_extends_bip32"
   ],
   "note": ""
  },
  {
   "property": "C48",
   "status": "proved",
   "theorems": [
    "C48_slip10_neuter_commutes"
   ],
   "note": ""
  },
  {
   "property": "C49",
   "status": "proved",
   "theorems": [
    "C49_ed25519_total",
    "C49_slip10_bytes"
   ],
   "note": ""
  },
  {
   "property": "C50",
   "status": "proved",
   "theorems": [
    "C50_errors_public",
    "C50_path_errors"
   ],
   "note": "Two-run statement over kind, message and context; the error source is not covered."
  },
  {
   "property": "C51",
   "status": "proved",
   "theorems": [
    "C51_drop_wipes"
   ],
   "note": "Drop code as value transformers; what the compiler does to memory is outside the model."
  },
  {
   "property": "C52",
   "status": "proved",
   "theorems": [
    "C52_error_builder"
   ],
   "note": ""
  },
  {
   "property": "C53",
   "status": "proved",
   "theorems": [
    "C53_version_bytes"
   ],
   "note": ""
  },
  {
   "property": "C54",
   "status": "proved",
   "theorems": [
    "C54_payload_conversions"
   ],
   "note": ""
  },
  {
   "property": "C55",
   "status": "proved",
   "theorems": [
    "C55_secp256k1",
    "C55_nist256p1"
   ],
   "note": "dc, the decoder for compact points, is arbitrary."
  },
  {
   "property": "C56",
   "status": "proved",
   "theorems": [
    "C56_real_curves",
    "C56_slip10_export"
   ],
   "note": "C38, C43 and C48 with the curve laws discharged by C55."
  },
  {
   "property": "C57",
   "status": "proved",
   "theorems": [
    "C57_fuzz_from_entropy",
    "C57_fuzz_to_seed"
   ],
   "note": "String::from_utf8_lossy is an arbitrary function."
  },
  {
   "property": "C58",
   "status": "proved",
   "theorems": [
    "C58_fuzz_from_phrase"
   ],
   "note": "String::from_utf8_lossy is an arbitrary function."
  },
  {
   "property": "C59",
   "status": "proved",
   "theorems": [
    "C59_fuzz_parse_path"
   ],
   "note": "String::from_utf8_lossy is an arbitrary function."
  },
  {
   "property": "C60",
   "status": "proved",
   "theorems": [
    "C60_fuzz_derive_path"
   ],
   "note": "Any library meeting ec_laws; C60_case instantiates it with secp256k1."
  },
  {
   "property": "C61",
   "status": "proved",
   "theorems": [
    "C61_fuzz_parse_xkey"
   ],
   "note": "Any library meeting ec_laws; String::from_utf8_lossy is an arbitrary function."
  },
  {
   "property": "C62",
   "status": "proved",
   "theorems": [
    "C62_typed_words_only",
    "C62_mess"
   ],
   "note": ""
  },
  {
   "property": "C63",
   "status": "proved",
   "theorems": [
    "C63_ed25519_public_key"
   ],
   "note": "On the concrete curve; primality, group law and order are proved. dalek modelled from RFC 8032 and its documentation."
  },
  {
   "property": "C64",
   "status": "proved",
   "theorems": [
    "C64_ed25519_parse"
   ],
   "note": "The parameter strict is the library behaviour on non-canonical encodings."
  },
  {
   "property": "C65",
   "status": "proved",
   "theorems": [
    "C65_tree_collision",
    "C65_public_collision"
   ],
   "note": "The colliding inputs are exhibited among those used (seed_input, public_input); an unconditional claim would be false for a hash function."
  },
  {
   "property": "C66",
   "status": "proved",
   "theorems": [
    "C66_parent_recovery"
   ],
   "note": "The tweaks are computed by public_tweaks from the extended public key."
  },
  {
   "property": "C67",
   "status": "proved",
   "theorems": [
    "C67_wallet_collision"
   ],
   "note": "Passphrases are assumed to be strings of Unicode scalar values, as every Rust str is."
  },
  {
   "property": "C68",
   "status": "proved",
   "theorems": [
    "C68_nfkd",
    "C68_full"
   ],
   "note": "For every ucd satisfying ucd_ok; ucd15_ok proves it for the Unicode 15 tables."
  },
  {
   "property": "C69",
   "status": "proved",
   "theorems": [
    "C69_messages",
    "C69_counts"
   ],
   "note": ""
  },
  {
   "property": "C70",
   "status": "proved",
   "theorems": [
    "C70_first_fault"
   ],
   "note": ""
  },
  {
   "property": "C71",
   "status": "proved",
   "theorems": [
    "C71_strings",
    "C71_source"
   ],
   "note": "The syntax covers what the script writes; `special` is the set of characters {:?} escapes as \\u{..}, left arbitrary."
  },
  {
   "property": "C72",
   "status": "proved",
   "theorems": [
    "C72_switches",
    "C72_selected",
    "C72_failure",
    "C72_builtin",
    "C72_features"
   ],
   "note": "Cargo is modelled by the closure of the requested features under the feature table and the CARGO_FEATURE_ variables."
  },
  {
   "property": "C73",
   "status": "proved",
   "theorems": [
    "C73_kind",
    "C73_debug",
    "C73_forged_refuted"
   ],
   "note": "C73_forged_refuted is a finding: user-supplied paths with line feeds forge lines of the Debug text."
  },
  {
   "property": "C74",
   "status": "proved",
   "theorems": [
    "C74_counts",
    "C74_mnemonics",
    "C74_handles",
    "C74_builtin_handles",
    "C74_any",
    "C74_handles_refuted"
   ],
   "note": "C74_handles_refuted is a finding about function addresses; handles are addresses in an arbitrary image."
  },
  {
   "property": "C75",
   "status": "proved",
   "theorems": [
    "C75_tree_collision",
    "C75_retried_seed",
    "C75_ed25519_collision"
   ],
   "note": "The colliding inputs are exhibited among those used (slip_input, ed_input)."
  },
  {
   "property": "C76",
   "status": "proved",
   "theorems": [
    "C76_parent_recovery"
   ],
   "note": "The tweaks are computed by slip_tweaks from the extended public key."
  },
  {
   "property": "C77",
   "status": "proved",
   "theorems": [
    "C77_drop",
    "C77_from_entropy",
    "C77_bad_entropy",
    "C77_from_phrase",
    "C77_short",
    "C77_long",
    "C77_medium"
   ],
   "note": "A finding for Japanese, Korean, French, Italian and Spanish. Heap blocks only; the leak statements assume an allocator that moves blocks when they grow."
  },
  {
   "property": "C78",
   "status": "proved",
   "theorems": [
    "C78_unknown_word",
    "C78_invalid_checksum",
    "C78_validate",
    "C78_accepted",
    "C78_validate_errors"
   ],
   "note": "A finding: these buffers are not Zeroizing. Heap blocks only."
  },
  {
   "property": "C79",
   "status": "proved",
   "theorems": [
    "C79_passphrase"
   ],
   "note": "A finding: the salt is a plain String. Heap blocks only."
  },
  {
   "property": "C80",
   "status": "proved",
   "theorems": [
    "C80_path_error",
    "C80_one_line"
   ],
   "note": "component_fault is stated with the grammar of C24 and is exclusive: the theorem is an equivalence."
  },
  {
   "property": "C81",
   "status": "proved",
   "theorems": [
    "C81_key_string_error"
   ],
   "note": "b58_fault describes bs58's reasons by value and position, not by its loops."
  },
  {
   "property": "C82",
   "status": "proved",
   "theorems": [
    "C82_encode_error",
    "C82_parse_private_error",
    "C82_parse_public_error",
    "C82_payload_error",
    "C82_master_error",
    "C82_child_error"
   ],
   "note": "The texts of the libraries' own errors are not modelled; which error is."
  },
  {
   "property": "C83",
   "status": "proved",
   "theorems": [
    "C83_same_key",
    "C83_blocks",
    "C83_recovered",
    "C83_ed25519"
   ],
   "note": "A finding: the copy of the seed is a plain Vec. Heap blocks only; SLIP-0010 retries on a cleared vector keep the tail of a longer seed."
  },
  {
   "property": "C84",
   "status": "proved",
   "theorems": [
    "C84_printed_text",
    "C84_printed_key"
   ],
   "note": "A finding: the buffer is a plain String although the serialised bytes are Zeroizing. Heap blocks only."
  },
  {
   "property": "C85",
   "status": "proved",
   "theorems": [
    "C85_sha2_pieces",
    "C85_hmac_pieces",
    "C85_pbkdf2_pieces",
    "C85_derive_pieces",
    "C85_derive_public_pieces"
   ],
   "note": "The incremental code of digest, block-buffer, hmac and pbkdf2 is modelled from their published sources; counters are unbounded."
  },
  {
   "property": "C86",
   "status": "proved",
   "theorems": [
    "C86_merkle_damgard",
    "C86_sha512_collision",
    "C86_sha256_collision",
    "C86_output",
    "C86_padding"
   ],
   "note": "Stated for every compression function (C86_merkle_damgard) and for SHA-256 and SHA-512."
  },
  {
   "property": "C87",
   "status": "proved",
   "theorems": [
    "C87_hmac_collision",
    "C87_equivalent_keys",
    "C87_long_key",
    "C87_passwords",
    "C87_tree_collision"
   ],
   "note": "Strengthens C65. The exception for the padded master key is real: C87_equivalent_keys shows the two keys give the same MACs."
  },
  {
   "property": "C88",
   "status": "proved",
   "theorems": [
    "C88_features",
    "C88_dependencies",
    "C88_backends",
    "C88_matrix",
    "C88_never",
    "C88_dalek_keys",
    "C88_new_everywhere"
   ],
   "note": "Trait impls and where clauses as an inductive relation; name resolution, coherence and the rest of rustc are not modelled. The SLIP-0010.md table says serialization no for secp256k1, but the type is that of BIP-0032, so encode_with is available there."
  },
  {
   "property": "C89",
   "status": "proved",
   "theorems": [
    "C89_additive",
    "C89_curve_error_refuted",
    "C89_curve_error_types"
   ],
   "note": "C89_curve_error_refuted is a finding: the std feature is not additive for CurveError::new."
  },
  {
   "property": "C90",
   "status": "proved",
   "theorems": [
    "C90_path_equality",
    "C90_version_equality",
    "C90_extend",
    "C90_parse_extend",
    "C90_default"
   ],
   "note": "Derived impls of child.rs, path/mod.rs, version.rs and error.rs in Derive32."
  },
  {
   "property": "C91",
   "status": "proved",
   "theorems": [
    "C91_bip0032",
    "C91_bip0039",
    "C91_text",
    "C91_one_line",
    "C91_names"
   ],
   "note": "The builders of core::fmt are modelled from their source; which characters core escapes in strings is a parameter, as in C72."
  },
  {
   "property": "C92",
   "status": "proved",
   "theorems": [
    "C92_text",
    "C92_keys",
    "C92_read",
    "C92_prefix_decides_refuted"
   ],
   "note": "C92_prefix_decides_refuted: numbers next to 0x0488B21E also print as xpub and parse as unknown versions."
  },
  {
   "property": "C93",
   "status": "proved",
   "theorems": [
    "C93_same_results",
    "C93_wiped",
    "C93_key_objects",
    "C93_private_keys_left",
    "C93_no_key_left_refuted",
    "C93_public_traces",
    "C93_dalek"
   ],
   "note": "At source level: what moves, registers and the optimiser copy is not modelled. C93_no_key_left_refuted and C93_private_keys_left are findings; C93_wiped and C93_key_objects are the positive part."
  },
  {
   "property": "C94",
   "status": "proved",
   "theorems": [
    "C94_no_race",
    "C94_one_context",
    "C94_results",
    "C94_no_deadlock",
    "C94_derivation"
   ],
   "note": "OnceLock is modelled after std's futex Once, without parking (a waiting thread loads again), in a view-based release/acquire memory; progress is stated as reachability of the end from every reachable state."
  },
  {
   "property": "C95",
   "status": "proved",
   "theorems": [
    "C95_same_results",
    "C95_encode",
    "C95_unknown_word",
    "C95_known_words",
    "C95_generate",
    "C95_any_generate",
    "C95_array_wiped_refuted"
   ],
   "note": "At source level, as C93. C95_generate and C95_array_wiped_refuted are the finding; C95_encode, C95_unknown_word and C95_known_words bound what the other variables keep."
  },
  {
   "property": "C96",
   "status": "proved",
   "theorems": [
    "C96_outcomes",
    "C96_uniform",
    "C96_support",
    "C96_guesses"
   ],
   "note": "Probability is counted: the outcomes are the list of all byte strings of the drawn length (C96_outcomes), each once. That a given random source is uniform is an assumption about the caller."
  },
  {
   "property": "C97",
   "status": "proved",
   "theorems": [
    "C97_bench_sizes",
    "C97_bip0039",
    "C97_test_generate",
    "C97_seed_length",
    "C97_serialize",
    "C97_setup_panics",
    "C97_derive"
   ],
   "note": "The closures of the other crates measured beside these are not modelled, nor is criterion."
  },
  {
   "property": "C98",
   "status": "proved",
   "theorems": [
    "C98_same_results",
    "C98_encode_control",
    "C98_addresses",
    "C98_constant_addresses_refuted",
    "C98_decode_control",
    "C98_decode_work",
    "C98_encode_work"
   ],
   "note": "Source level; the inside of phf, SHA-256 and String and the compiler are out of scope."
  },
  {
   "property": "C99",
   "status": "proved",
   "theorems": [
    "C99_chain",
    "C99_std_adds",
    "C99_root",
    "C99_no_repetition_refuted"
   ],
   "note": "The texts and causes of the libraries are arbitrary. ed25519 errors go through the same conversions but are not in operation_error."
  },
  {
   "property": "C100",
   "status": "proved",
   "theorems": [
    "C100_private_path",
    "C100_private_control",
    "C100_public_path",
    "C100_master",
    "C100_slip10_private_child",
    "C100_slip10_public_child",
    "C100_slip10_ed25519_child",
    "C100_slip10_master"
   ],
   "note": "Source level; what the HMAC, hash and curve libraries do inside and the compiler are out of scope. SLIP-0010 is stated per child, not per path."
  },
  {
   "property": "C101",
   "status": "proved",
   "theorems": [
    "C101_private_fields",
    "C101_public_fields",
    "C101_copies",
    "C101_private_determined",
    "C101_public_determined",
    "C101_complete_refuted"
   ],
   "note": "The three weierstrass backends; ed25519 keys have no extended key strings."
  },
  {
   "property": "C102",
   "status": "proved",
   "theorems": [
    "C102_shared_words",
    "C102_same_seed",
    "C102_two_languages",
    "C102_one_entropy_refuted"
   ],
   "note": "The overlap of the lists is a computation over all words checked by the kernel; texts are covered by C02 and C03."
  },
  {
   "property": "C103",
   "status": "proved",
   "theorems": [
    "C103_order",
    "C103_hash",
    "C103_count_hash",
    "C103_stable_hash_refuted"
   ],
   "note": "Derived Hash as rustc expands it: the discriminant as an isize, nothing for an enum of one variant."
  },
  {
   "property": "C104",
   "status": "proved",
   "theorems": [
    "C104_any_curves",
    "C104_sha512",
    "C104_two_curves"
   ],
   "note": "A reduction: that SHA-512 has no such collisions is not claimed."
  },
  {
   "property": "C105",
   "status": "proved",
   "theorems": [
    "C105_parse_path",
    "C105_derive_path",
    "C105_parse_xkey",
    "C105_from_entropy",
    "C105_to_seed",
    "C105_from_phrase",
    "C105_same",
    "C105_undetected_versions",
    "C105_undetected_rejecting",
    "C105_undetected_seed",
    "C105_undetected_path",
    "C105_undetected_letters",
    "C105_undetected_seed39",
    "C105_undetected_backwards",
    "C105_undetected_strict",
    "C105_one_edit",
    "C105_no_append"
   ],
   "note": "The implementations are pure functions: one that keeps state between calls is outside. Within parse_xkey and from_phrase the Base58Check helpers and the English word list of the targets themselves stay those of the libraries."
  },
  {
   "property": "C106",
   "status": "proved",
   "theorems": [
    "C106_slip10_never_fails",
    "C106_only",
    "C106_messages",
    "C106_reached",
    "C106_hash_reached",
    "C106_phrase_errors",
    "C106_entropy_errors"
   ],
   "note": "Whether the three hash-dependent errors occur over the real curves is not known: C82 gives the condition on HMAC-SHA512."
  },
  {
   "property": "C107",
   "status": "proved",
   "theorems": [
    "C107_private",
    "C107_public",
    "C107_private_import",
    "C107_public_import"
   ],
   "note": "The curve laws are a hypothesis discharged for the real curves by C55. A zero tweak, about which BIP-0032 says nothing, is accepted by the libsecp256k1 backend only."
  },
  {
   "property": "C108",
   "status": "proved",
   "theorems": [
    "C108_private",
    "C108_public",
    "C108_ed25519",
    "C108_import",
    "C108_extends_bip32"
   ],
   "note": "The loops of the code are unbounded; the model's fuel is existentially quantified, so a text is related to the node exactly if some number of rounds suffices. The laws of the libraries are hypotheses, discharged for the real curves by C55 and C63."
  },
  {
   "property": "C109",
   "status": "proved",
   "theorems": [
    "C109_bip32",
    "C109_slip10",
    "C109_ed25519"
   ],
   "note": "That the Rust libraries compute the group operations of these curves is the model (Secp256k1.v, Nist256p1.v, Dalek25519.v); the theorem says what the crates do with them. The text of a tweak of zero, on which BIP-0032 is silent, depends on the library as in C44."
  },
  {
   "property": "C110",
   "status": "proved",
   "theorems": [
    "C110_no_panic",
    "C110_held_values",
    "C110_slip10_keys"
   ],
   "note": "A loop of SLIP-0010 that never finds a key is the absence of a result, not a panic (C46). Curves and backends a caller defines on the public traits are outside the model. Functions that are total in the model and return no value of the crate (accessors, Display of child numbers and paths) are left out of the calls; Display of a payload is in."
  },
  {
   "property": "C111",
   "status": "proved",
   "theorems": [
    "C111_source_read",
    "C111_encode_is_bip39",
    "C111_encode_illegal",
    "C111_encode_overflow",
    "C111_encode_model",
    "C111_decode_is_bip39",
    "C111_bit_queue",
    "C111_counts",
    "C111_counts_others"
   ],
   "note": "Trusted here: RustSource.v is a copy of the files, RustSyntax.v reads Rust as rustc does, RustEval.v defines the constructs and the library functions used. Types are not checked; a program the evaluator cannot run is stuck, and the theorems show that these are not. The generic wrappers encode_entropy and decode_phrase, which only call the functions with AnyLanguage::of, are in the texts but not among the theorems."
  },
  {
   "property": "C112",
   "status": "proved",
   "theorems": [
    "C112_source_read",
    "C112_child_grammar",
    "C112_child_number",
    "C112_path_grammar",
    "C112_path_error",
    "C112_display",
    "C112_hardened",
    "C112_hardened_children"
   ],
   "note": "Trusted here: RustSource32.v is a copy of the files, RustSyntax.v reads Rust as rustc does, RustEval.v defines the constructs and the library functions used; iterators are lists, and parse() without a type is taken as parse::<ChildNumber>(), which type inference gives at path/mod.rs 121. The Display functions of the hardened types, which only delegate, are in the texts but not among the theorems."
  },
  {
   "property": "C113",
   "status": "proved",
   "theorems": [
    "C113_ripemd160",
    "C113_constants"
   ],
   "note": "The ripemd crate itself is not in /repo and is not modelled; that it computes RIPEMD-160 is trusted. C113_case has three of the paper's test values."
  },
  {
   "property": "C114",
   "status": "proved",
   "theorems": [
    "C114_source_read",
    "C114_display",
    "C114_texts"
   ],
   "note": "Trusted as in C111; RustSourceErr.v copies lines 6-33 of bip0039/src/error.rs and 136-146 of bip0032/src/error.rs. Display and Debug of bip0032's Error, which loop over the context, are in the model only."
  }
 ]
}