(** Texts of the error files, generated by copying them from /repo with quotation marks doubled. *)
From Verif Require Import RustSyntax.
Local Open Scope string_scope.

(** bip0039/src/error.rs 6-33 *)
Definition error39_rs : string :=
"#[derive(Clone, Debug, Eq, PartialEq)]
pub enum Error {
    /// Mnemonic only support 12/15/18/21/24 words.
    BadWordCount(usize),
    /// Entropy was not a multiple of 32 bits or between 128-256n bits in length.
    BadEntropyBitCount(usize),
    /// Mnemonic contains an unknown word.
    UnknownWord(String),
    /// The mnemonic has an invalid checksum.
    InvalidChecksum,
}

impl fmt::Display for Error {
    fn fmt(&self, f: &mut fmt::Formatter<'_>) -> fmt::Result {
        match self {
            Error::BadWordCount(count) => {
                write!(f, ""BIP-0039 mnemonic only supports 12/15/18/21/24 words: {count}"")
            },
            Error::BadEntropyBitCount(count) => write!(
                f,
                ""entropy was not between 128-256 bits or not a multiple of 32 bits: {count} bits""
            ),
            Error::UnknownWord(word) => write!(f, ""mnemonic contains an unknown word: {word}""),
            Error::InvalidChecksum => write!(f, ""mnemonic has an invalid checksum""),
        }
    }
}

".

(** bip0032/src/error.rs 136-146 *)
Definition kind_rs : string :=
"impl fmt::Display for ErrorKind {
    fn fmt(&self, f: &mut fmt::Formatter<'_>) -> fmt::Result {
        match self {
            ErrorKind::InvalidPath => f.write_str(""InvalidPath""),
            ErrorKind::InvalidPayload => f.write_str(""InvalidPayload""),
            ErrorKind::InvalidVersion => f.write_str(""InvalidVersion""),
            ErrorKind::InvalidKeyData => f.write_str(""InvalidKeyData""),
            ErrorKind::InvalidDerivation => f.write_str(""InvalidDerivation""),
        }
    }
}
".
