(** Texts of source files, generated by copying them from /repo with quotation marks doubled. *)
From Verif Require Import RustSyntax.
Local Open Scope string_scope.

(** bip0039/src/mnemonic/bit_accumulator.rs *)
Definition bit_accumulator_rs : string :=
"//! MSB-first bit accumulator utility.
//!
//! This module provides a tiny helper for streaming fixed-width values in MSB-first order,
//! which is used by BIP-0039 encoding/decoding.
//!
//! Convention:
//! - Bits are shifted in MSB-first (the earliest bit ends up at higher positions while
//!   accumulating).
//! - When draining, we always take the highest available bits first to preserve MSB-first order.

/// A tiny MSB-first bit accumulator for streaming fixed-width values.
///
/// BIP-0039 streams:
/// - entropy bits (bytes, MSB-first)
/// - checksum bits (MSB-first)
/// - word indices (11-bit, MSB-first)
#[derive(Copy, Clone, Debug, Default, Eq, PartialEq)]
pub struct BitAccumulator {
    acc: u64,
    bits: usize,
}

impl BitAccumulator {
    /// Create a new empty accumulator.
    #[inline]
    pub const fn new() -> Self {
        Self { acc: 0, bits: 0 }
    }

    /// Push the lowest `n` bits of `v` into the accumulator, MSB-first within that `n`-bit value.
    ///
    /// # Panics (debug)
    /// In debug builds, this asserts `n <= 56` to keep the implementation simple and ensure
    /// shifting never overflows `u64` for the intended BIP-0039 use cases.
    #[inline]
    pub const fn push_bits(&mut self, v: u64, n: usize) {
        debug_assert!(n <= 56, ""push_bits: too many bits"");

        // BIP-0039 only uses small `n` (8 for entropy bytes; 4..=8 for checksum bits).
        // Since `n <= 56` here, we never need to handle the `n == 64` special case.
        let mask = (1u64 << n) - 1;
        self.acc = (self.acc << n) | (v & mask);
        self.bits += n;
    }

    /// Drain the next `n` bits (MSB-first) as a value in `0..(1<<n)`.
    #[inline]
    pub const fn take_bits(&mut self, n: usize) -> u64 {
        debug_assert!(n <= self.bits, ""take_bits: not enough bits"");

        // Earliest bits are stored at higher positions; drain from the top.
        let shift = self.bits - n;
        let v = (self.acc >> shift) & ((1u64 << n) - 1);

        // Keep only the remaining low `shift` bits and update the buffered bit count.
        // This avoids an extra branch on the common hot path.
        self.acc &= (1u64 << shift) - 1;
        self.bits = shift;

        v
    }

    /// Whether at least `n` bits can be drained.
    #[inline]
    pub const fn can_take(&self, n: usize) -> bool {
        self.bits >= n
    }

    /// Current number of bits buffered.
    #[inline]
    pub const fn bits(&self) -> usize {
        self.bits
    }
}

#[cfg(test)]
mod tests {
    use super::*;

    // Keep a lightweight sanity test that our MSB-first bit conventions behave as expected.
    #[test]
    fn test_bitacc_msb_first_roundtrip_bytes() {
        let mut acc = BitAccumulator::new();
        acc.push_bits(0b1111_0111, 8);
        assert_eq!(acc.take_bits(1), 1);
        assert_eq!(acc.take_bits(1), 1);
        assert_eq!(acc.take_bits(1), 1);
        assert_eq!(acc.take_bits(1), 1);
        assert_eq!(acc.take_bits(1), 0);
        assert_eq!(acc.take_bits(3), 0b111);
        assert_eq!(acc.bits(), 0);
    }
}
".

(** bip0039/src/mnemonic/entropy.rs *)
Definition entropy_rs : string :=
"//! Entropy encoding internals.
//!
//! This module contains the logic to encode BIP-0039 entropy bytes into
//! the mnemonic phrase (words joined by single ASCII spaces).
//!
//! It is intentionally crate-private and designed to be the single source of truth
//! for encoding logic used by `Mnemonic::from_entropy` (and any future APIs).
//!
//! Encoding algorithm (BIP-0039):
//! - Given ENT bits of entropy (ENT ∈ {128,160,192,224,256})
//! - Compute checksum = first ENT/32 bits of SHA256(entropy)
//! - Concatenate entropy bits + checksum bits
//! - Split into 11-bit groups -> indices in 0..2048
//! - Map indices to words via the selected `Language` wordlist

#[cfg(not(feature = ""std""))]
use alloc::string::String;

use sha2::{Digest, Sha256};

use super::{BITS_PER_BYTE, BITS_PER_WORD, BitAccumulator, Count};
use crate::{
    error::Error,
    language::{AnyLanguage, Language},
};

/// Encode entropy into a mnemonic phrase using `Language` generic type.
///
/// Note:
/// - This function assumes entropy bytes are already in the intended form.
/// - Entropy length is validated against BIP-0039 allowed sizes.
pub fn encode_entropy<L: Language>(entropy: &[u8]) -> Result<String, Error> {
    encode_entropy_with(AnyLanguage::of::<L>(), entropy)
}

/// Encode entropy into a mnemonic phrase using `AnyLanguage` type.
///
/// Note:
/// - This function assumes entropy bytes are already in the intended form.
/// - Entropy length is validated against BIP-0039 allowed sizes.
pub fn encode_entropy_with(language: AnyLanguage, entropy: &[u8]) -> Result<String, Error> {
    let count = Count::from_key_size(entropy.len() * BITS_PER_BYTE)?;

    // An initial entropy of ENT bits is given.
    // A checksum is generated by taking the first `ENT/32` bits of its SHA256 hash,
    // and this checksum is appended to the end of the initial entropy.
    let checksum_byte = Sha256::digest(entropy)[0];
    let checksum_bit_length = count.checksum_bit_length();

    // Estimate output sizes.
    let mut phrase = {
        let words = count.word_count();
        let rough_phrase_cap = words * 8 + (words.saturating_sub(1));
        String::with_capacity(rough_phrase_cap)
    };

    // Stream bytes -> 11-bit indices without allocating a per-bit buffer.
    let mut accumulator = BitAccumulator::new();

    let push_index = |idx: usize, phrase: &mut String| {
        if !phrase.is_empty() {
            phrase.push(' ');
        }
        phrase.push_str(language.word_of(idx));
    };

    // Feed entropy bits (byte-aligned, MSB-first).
    for &b in entropy {
        accumulator.push_bits(b as u64, BITS_PER_BYTE);

        while accumulator.can_take(BITS_PER_WORD) {
            let index = accumulator.take_bits(BITS_PER_WORD) as usize;
            push_index(index, &mut phrase);
        }
    }

    // Feed checksum bits (4..=8, MSB-first) and exhaust remaining indices.
    {
        // Compute checksum bits (MSB-first) in the low bits of a u8.
        let checksum_bits = checksum_byte >> (BITS_PER_BYTE - checksum_bit_length);
        accumulator.push_bits(checksum_bits as u64, checksum_bit_length);

        while accumulator.can_take(BITS_PER_WORD) {
            let index = accumulator.take_bits(BITS_PER_WORD) as usize;
            push_index(index, &mut phrase);
        }
    }

    debug_assert_eq!(
        accumulator.bits(),
        0,
        ""entropy + checksum bits not exhausted during encoding""
    );

    Ok(phrase)
}
".

(** bip0039/src/mnemonic/phrase.rs *)
Definition phrase_rs : string :=
"//! Phrase decoding internals.
//!
//! This module contains the logic to decode a BIP-0039 mnemonic phrase into:
//! - the original entropy bytes
//! - (optionally) a normalized phrase representation (single ASCII spaces)
//!
//! It is intentionally crate-private and designed to be the single source of truth
//! for decoding/validation logic used by `Mnemonic::from_phrase` and `Mnemonic::validate`.

#[cfg(not(feature = ""std""))]
use alloc::{
    string::{String, ToString},
    vec,
    vec::Vec,
};

use sha2::{Digest, Sha256};

use super::{BITS_PER_BYTE, BITS_PER_WORD, BitAccumulator, Count};
use crate::{
    error::Error,
    language::{AnyLanguage, Language},
};

/// Controls whether decoding also constructs a normalized phrase (single ASCII spaces).
#[derive(Copy, Clone, Debug, Eq, PartialEq)]
pub enum DecodeMode {
    /// Only validate / decode entropy. Do not allocate a normalized phrase.
    ValidateOnly,
    /// Also build a normalized phrase (single ASCII spaces).
    BuildNormalizedPhrase,
}

/// Internal decoded result used by `Mnemonic`.
pub struct DecodedPhrase {
    pub entropy: Vec<u8>,
    pub normalized_phrase: Option<String>,
}

/// Decode a phrase into entropy and (optionally) a normalized phrase using `Language` generic type.
///
/// Note:
/// - This function assumes the input has already been normalized to UTF-8 NFKD by the caller.
pub fn decode_phrase<L: Language>(phrase: &str, mode: DecodeMode) -> Result<DecodedPhrase, Error> {
    decode_phrase_with(AnyLanguage::of::<L>(), phrase, mode)
}

/// Decode a phrase into entropy and (optionally) a normalized phrase using `AnyLanguage` type.
///
/// Note:
/// - This function assumes the input has already been normalized to UTF-8 NFKD by the caller.
pub fn decode_phrase_with(
    language: AnyLanguage,
    phrase: &str,
    mode: DecodeMode,
) -> Result<DecodedPhrase, Error> {
    let params = parse_params_from_phrase(phrase)?;

    let mut normalized_phrase = match mode {
        DecodeMode::ValidateOnly => None,
        DecodeMode::BuildNormalizedPhrase => {
            let words = params.count.word_count();
            // Rough capacity: avg word len ~8 bytes + spaces.
            let rough_phrase_cap = words * 8 + (words.saturating_sub(1));
            Some(String::with_capacity(rough_phrase_cap))
        },
    };

    let mut state = DecodeState::new(params);

    for word in phrase.split_whitespace() {
        if let Some(out) = normalized_phrase.as_mut() {
            if !out.is_empty() {
                out.push(' ');
            }
            out.push_str(word);
        }

        let index = match language.index_of(word) {
            Some(i) => i as u64,
            None => return Err(Error::UnknownWord(word.to_string())),
        };

        state.push_index(index);
    }

    let entropy = state.finish()?;

    Ok(DecodedPhrase { entropy, normalized_phrase })
}

struct DecodeParams {
    entropy_byte_length: usize,
    checksum_bit_length: usize,
    count: Count,
}

fn parse_params_from_phrase(phrase: &str) -> Result<DecodeParams, Error> {
    let count = Count::from_phrase(phrase)?;
    let entropy_byte_length = count.entropy_bit_length() / BITS_PER_BYTE;
    let checksum_bit_length = count.checksum_bit_length();

    Ok(DecodeParams { entropy_byte_length, checksum_bit_length, count })
}

struct DecodeState {
    params: DecodeParams,
    entropy: Vec<u8>,
    entropy_out: usize,
    accumulator: BitAccumulator,
    actual_checksum: u8,
    actual_checksum_filled: usize,
}

impl DecodeState {
    fn new(params: DecodeParams) -> Self {
        let entropy_byte_length = params.entropy_byte_length;
        Self {
            params,
            entropy: vec![0u8; entropy_byte_length],
            entropy_out: 0,
            accumulator: BitAccumulator::new(),
            actual_checksum: 0,
            actual_checksum_filled: 0,
        }
    }

    fn push_index(&mut self, index: u64) {
        let entropy_byte_length = self.params.entropy_byte_length;
        let checksum_bit_length = self.params.checksum_bit_length;

        self.accumulator.push_bits(index, BITS_PER_WORD);

        // Drain full bytes into entropy first.
        while self.entropy_out < entropy_byte_length && self.accumulator.can_take(BITS_PER_BYTE) {
            self.entropy[self.entropy_out] = self.accumulator.take_bits(BITS_PER_BYTE) as u8;
            self.entropy_out += 1;
        }

        // After entropy is complete, drain checksum bits (4..=8).
        while self.entropy_out == entropy_byte_length
            && self.actual_checksum_filled < checksum_bit_length
            && self.accumulator.can_take(1)
        {
            let bit = self.accumulator.take_bits(1) as u8;
            self.actual_checksum = (self.actual_checksum << 1) | bit;
            self.actual_checksum_filled += 1;
        }
    }

    fn finish(self) -> Result<Vec<u8>, Error> {
        // These conditions should be guaranteed by `Count::from_phrase` and correct decode logic.
        // If they fail, it's a bug in this library, not user input.
        debug_assert_eq!(
            self.entropy_out, self.params.entropy_byte_length,
            ""decoded entropy length mismatch (bytes)""
        );
        debug_assert_eq!(
            self.actual_checksum_filled, self.params.checksum_bit_length,
            ""decoded checksum length mismatch (bits)""
        );
        debug_assert_eq!(self.accumulator.bits(), 0, ""trailing bits remained after decoding"");

        // Verify checksum (user-visible validation).
        const fn checksum(source: u8, bit_length: usize) -> u8 {
            source >> (BITS_PER_BYTE - bit_length)
        }

        let checksum_byte = Sha256::digest(&self.entropy)[0];
        let expected_checksum = checksum(checksum_byte, self.params.checksum_bit_length);
        if self.actual_checksum != expected_checksum {
            return Err(Error::InvalidChecksum);
        }

        Ok(self.entropy)
    }
}
".

(** bip0039/src/mnemonic/mod.rs 29-149 *)
Definition count_rs : string :=
"
const BITS_PER_WORD: usize = 11;
const BITS_PER_BYTE: usize = 8;

/// Determines the words count that will be present in a [`Mnemonic`](crate::Mnemonic) phrase.
#[derive(Copy, Clone, Debug, Default, Ord, PartialOrd, Eq, PartialEq, Hash)]
pub enum Count {
    /// 12 words, entropy length: 128 bits, the checksum length: 4 bits.
    #[default]
    Words12,
    /// 15 words, entropy length: 160 bits, the checksum length: 5 bits.
    Words15,
    /// 18 words, entropy length: 192 bits, the checksum length: 6 bits.
    Words18,
    /// 21 words, entropy length: 224 bits, the checksum length: 7 bits.
    Words21,
    /// 24 words, entropy length: 256 bits, the checksum length: 8 bits.
    Words24,
}

impl fmt::Display for Count {
    fn fmt(&self, f: &mut fmt::Formatter<'_>) -> fmt::Result {
        write!(
            f,
            ""{} words (entropy {} bits + checksum {} bits)"",
            self.word_count(),
            self.entropy_bit_length(),
            self.checksum_bit_length()
        )
    }
}

impl From<Count> for usize {
    fn from(count: Count) -> Self {
        match count {
            Count::Words12 => 12,
            Count::Words15 => 15,
            Count::Words18 => 18,
            Count::Words21 => 21,
            Count::Words24 => 24,
        }
    }
}

impl TryFrom<usize> for Count {
    type Error = Error;

    fn try_from(count: usize) -> Result<Self, Self::Error> {
        Self::from_word_count(count)
    }
}

impl Count {
    /// Creates a [`Count`] for a mnemonic phrase with the given word count.
    const fn from_word_count(count: usize) -> Result<Self, Error> {
        Ok(match count {
            12 => Self::Words12,
            15 => Self::Words15,
            18 => Self::Words18,
            21 => Self::Words21,
            24 => Self::Words24,
            others => return Err(Error::BadWordCount(others)),
        })
    }

    /// Creates a [`Count`] for a mnemonic phrase with the given entropy bits size.
    const fn from_key_size(size: usize) -> Result<Self, Error> {
        Ok(match size {
            128 => Self::Words12,
            160 => Self::Words15,
            192 => Self::Words18,
            224 => Self::Words21,
            256 => Self::Words24,
            others => return Err(Error::BadEntropyBitCount(others)),
        })
    }

    /// Creates a [`Count`] for an existing mnemonic phrase.
    fn from_phrase<P: AsRef<str>>(phrase: P) -> Result<Self, Error> {
        let word_count = phrase.as_ref().split_whitespace().count();
        Self::from_word_count(word_count)
    }

    /// Returns the number of words.
    pub const fn word_count(&self) -> usize {
        match self {
            Self::Words12 => 12,
            Self::Words15 => 15,
            Self::Words18 => 18,
            Self::Words21 => 21,
            Self::Words24 => 24,
        }
    }

    /// Returns the size of `entropy + checksum` in bits.
    pub const fn total_bit_length(&self) -> usize {
        self.entropy_bit_length() + self.checksum_bit_length()
    }

    /// Returns the size of entropy in bits.
    pub const fn entropy_bit_length(&self) -> usize {
        match self {
            Self::Words12 => 128,
            Self::Words15 => 160,
            Self::Words18 => 192,
            Self::Words21 => 224,
            Self::Words24 => 256,
        }
    }

    /// Returns the size of checksum in bits.
    pub const fn checksum_bit_length(&self) -> usize {
        match self {
            Self::Words12 => 4,
            Self::Words15 => 5,
            Self::Words18 => 6,
            Self::Words21 => 7,
            Self::Words24 => 8,
        }
    }
}
".
