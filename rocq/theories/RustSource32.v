(** Texts of source files of bip0032, generated by copying them from /repo with quotation marks doubled. *)
From Verif Require Import RustSyntax.
Local Open Scope string_scope.

(** bip0032/src/error.rs 88-134 *)
Definition error32_rs : string :=
"/// Error type for bip0032 operations.
pub struct Error {
    kind: ErrorKind,
    message: Cow<'static, str>,
    context: Vec<(&'static str, String)>,
    source: Option<ErrorSource>,
}

impl Error {
    /// Creates a new error with the given kind and message.
    pub fn new(kind: ErrorKind, message: impl Into<Cow<'static, str>>) -> Self {
        Self { kind, message: message.into(), context: Vec::new(), source: None }
    }

    /// Returns the error kind.
    pub const fn kind(&self) -> ErrorKind {
        self.kind
    }

    /// Returns the error message.
    pub fn message(&self) -> &str {
        &self.message
    }

    /// Returns the error context entries.
    pub fn context(&self) -> &[(&'static str, String)] {
        &self.context
    }

    /// Adds a context entry to the error.
    pub fn with_context(mut self, key: &'static str, value: impl ToString) -> Self {
        self.context.push((key, value.to_string()));
        self
    }

    /// Attaches a error source.
    pub fn set_source(mut self, source: impl IntoErrorSource) -> Self {
        debug_assert!(self.source.is_none(), ""source already set"");
        self.source = Some(source.into_error_source());
        self
    }

    /// Returns the source error, if any.
    pub fn source(&self) -> Option<&ErrorSource> {
        self.source.as_ref()
    }
}
".

(** bip0032/src/path/child.rs 1-143 *)
Definition child_rs : string :=
"use core::{fmt, str::FromStr};

use crate::{Error, ErrorKind, Result};

/// A BIP32 child number with optional hardened flag.
#[derive(Clone, Copy, Debug, Eq, PartialEq)]
pub struct ChildNumber(u32);

impl ChildNumber {
    // normal child keys: 0x0000_0000 ~ 0x7FFF_FFFF
    // hardened child keys: 0x8000_0000 ~ 0xFFFF_FFFF
    const HARDENED_OFFSET: u32 = 0x8000_0000;

    /// Creates a child number from an index and hardened flag.
    pub fn new(index: u32, hardened: bool) -> Result<Self> {
        if index >= Self::HARDENED_OFFSET {
            return Err(Error::new(ErrorKind::InvalidPath, ""child index must be less than 2^31"")
                .with_context(""child_index"", index));
        }
        let value = if hardened { index + Self::HARDENED_OFFSET } else { index };
        Ok(Self(value))
    }

    /// Returns the child index without hardening bit.
    pub const fn index(self) -> u32 {
        self.0 & !Self::HARDENED_OFFSET
    }

    /// Returns true if this child is hardened.
    pub const fn is_hardened(self) -> bool {
        self.0 >= Self::HARDENED_OFFSET
    }

    /// Creates a child number from the big-endian bytes.
    pub const fn from_bytes(bytes: [u8; 4]) -> Self {
        Self(u32::from_be_bytes(bytes))
    }

    /// Returns this child number as the big-endian bytes.
    pub const fn to_bytes(self) -> [u8; 4] {
        self.0.to_be_bytes()
    }
}

impl fmt::Display for ChildNumber {
    fn fmt(&self, f: &mut fmt::Formatter<'_>) -> fmt::Result {
        write!(f, ""{}"", self.index())?;

        if self.is_hardened() {
            f.write_str(""\'"")?;
        }

        Ok(())
    }
}

impl FromStr for ChildNumber {
    type Err = Error;

    fn from_str(component: &str) -> Result<Self> {
        parse_child_component(component)
    }
}

impl From<ChildNumber> for u32 {
    fn from(value: ChildNumber) -> Self {
        value.0
    }
}

impl From<HardenedChildNumber> for ChildNumber {
    fn from(value: HardenedChildNumber) -> Self {
        value.0
    }
}

/// A hardened-only child number.
#[derive(Clone, Copy, Debug, Eq, PartialEq)]
pub struct HardenedChildNumber(ChildNumber);

impl HardenedChildNumber {
    /// Creates a hardened child number from an index.
    pub fn new(index: u32) -> Result<Self> {
        ChildNumber::new(index, true).map(Self)
    }

    /// Returns the child index without hardening bit.
    pub const fn index(self) -> u32 {
        self.0.index()
    }

    /// Returns this child number as the big-endian bytes.
    pub const fn to_bytes(self) -> [u8; 4] {
        self.0.to_bytes()
    }

    pub(crate) fn from_child_unchecked(child: ChildNumber) -> Self {
        debug_assert!(child.is_hardened());
        Self(child)
    }
}

impl fmt::Display for HardenedChildNumber {
    fn fmt(&self, f: &mut fmt::Formatter) -> fmt::Result {
        fmt::Display::fmt(&self.0, f)
    }
}

impl TryFrom<ChildNumber> for HardenedChildNumber {
    type Error = Error;

    fn try_from(value: ChildNumber) -> Result<Self> {
        if value.is_hardened() {
            Ok(Self(value))
        } else {
            Err(Error::new(ErrorKind::InvalidPath, ""expected hardened child number"")
                .with_context(""child_index"", value.index()))
        }
    }
}

fn parse_child_component(component: &str) -> Result<ChildNumber> {
    let (number, hardened) = if let Some(stripped) = component.strip_suffix('\'') {
        (stripped, true)
    } else if let Some(stripped) = component.strip_suffix('h') {
        (stripped, true)
    } else if let Some(stripped) = component.strip_suffix('H') {
        (stripped, true)
    } else {
        (component, false)
    };

    if number.is_empty() {
        return Err(Error::new(ErrorKind::InvalidPath, ""missing child index"")
            .with_context(""component"", component));
    }

    let index = number.parse::<u32>().map_err(|_| {
        Error::new(ErrorKind::InvalidPath, ""invalid child index"")
            .with_context(""component"", component)
    })?;
    ChildNumber::new(index, hardened)
}
".

(** bip0032/src/path/mod.rs 1-176 *)
Definition path_rs : string :=
"//! Derivation path parsing and child number handling.

#[cfg(not(feature = ""std""))]
use alloc::{vec, vec::Vec};
use core::{fmt, slice, str::FromStr};
#[cfg(feature = ""std"")]
use std::vec;

use crate::{Error, ErrorKind, Result};

mod child;

pub use child::{ChildNumber, HardenedChildNumber};

/// A parsed BIP32 derivation path.
///
/// This type supports parsing paths with or without a leading `m/` prefix.
/// The root path can be written as `m` or `M`. Hardened components accept
/// the `'`, `h`, or `H` suffix and display as `'`.
#[derive(Clone, Debug, Default, Eq, PartialEq)]
pub struct DerivationPath {
    children: Vec<ChildNumber>,
}

impl DerivationPath {
    /// Returns the child numbers in this path.
    pub fn children(&self) -> &[ChildNumber] {
        &self.children
    }
}

impl AsRef<[ChildNumber]> for DerivationPath {
    fn as_ref(&self) -> &[ChildNumber] {
        &self.children
    }
}

impl From<Vec<ChildNumber>> for DerivationPath {
    fn from(children: Vec<ChildNumber>) -> Self {
        Self { children }
    }
}

impl FromIterator<ChildNumber> for DerivationPath {
    fn from_iter<T: IntoIterator<Item = ChildNumber>>(iter: T) -> Self {
        Self { children: iter.into_iter().collect() }
    }
}

impl Extend<ChildNumber> for DerivationPath {
    fn extend<T: IntoIterator<Item = ChildNumber>>(&mut self, iter: T) {
        self.children.extend(iter);
    }
}

impl IntoIterator for DerivationPath {
    type Item = ChildNumber;
    type IntoIter = vec::IntoIter<ChildNumber>;

    fn into_iter(self) -> Self::IntoIter {
        self.children.into_iter()
    }
}

impl<'a> IntoIterator for &'a DerivationPath {
    type Item = &'a ChildNumber;
    type IntoIter = slice::Iter<'a, ChildNumber>;

    fn into_iter(self) -> Self::IntoIter {
        self.children.iter()
    }
}

impl fmt::Display for DerivationPath {
    fn fmt(&self, f: &mut fmt::Formatter<'_>) -> fmt::Result {
        f.write_str(""m"")?;

        for child in &self.children {
            write!(f, ""/{child}"")?;
        }

        Ok(())
    }
}

impl FromStr for DerivationPath {
    type Err = Error;

    fn from_str(path: &str) -> Result<Self> {
        if path.is_empty() {
            return Err(Error::new(ErrorKind::InvalidPath, ""derivation path is empty"")
                .with_context(""path"", path));
        }

        if path == ""m"" || path == ""M"" {
            return Ok(Self::default());
        }

        let rest = if let Some(stripped) = path.strip_prefix(""m/"") {
            stripped
        } else if let Some(stripped) = path.strip_prefix(""M/"") {
            stripped
        } else {
            path
        };

        if rest.is_empty() {
            return Err(Error::new(ErrorKind::InvalidPath, ""empty path component"")
                .with_context(""path"", path));
        }

        let mut children =
            Vec::with_capacity(rest.as_bytes().iter().filter(|&&b| b == b'/').count() + 1);

        for part in rest.split('/') {
            if part.is_empty() {
                return Err(Error::new(ErrorKind::InvalidPath, ""empty path component"")
                    .with_context(""path"", path));
            }
            children.push(part.parse()?);
        }

        Ok(Self { children })
    }
}

impl From<HardenedDerivationPath> for DerivationPath {
    fn from(value: HardenedDerivationPath) -> Self {
        value.inner
    }
}

/// A derivation path containing only hardened components.
#[derive(Clone, Debug, Default, Eq, PartialEq)]
pub struct HardenedDerivationPath {
    inner: DerivationPath,
}

impl HardenedDerivationPath {
    /// Returns the child numbers in this path.
    pub fn children(&self) -> impl Iterator<Item = HardenedChildNumber> + '_ {
        self.inner
            .children()
            .iter()
            .copied()
            .map(HardenedChildNumber::from_child_unchecked)
    }
}

impl fmt::Display for HardenedDerivationPath {
    fn fmt(&self, f: &mut fmt::Formatter) -> fmt::Result {
        fmt::Display::fmt(&self.inner, f)
    }
}

impl FromStr for HardenedDerivationPath {
    type Err = Error;

    fn from_str(path: &str) -> Result<Self> {
        let path = path.parse::<DerivationPath>()?;
        Self::try_from(path)
    }
}

impl TryFrom<DerivationPath> for HardenedDerivationPath {
    type Error = Error;

    fn try_from(value: DerivationPath) -> Result<Self> {
        if let Some(child) = value.children().iter().find(|child| !child.is_hardened()) {
            return Err(Error::new(ErrorKind::InvalidPath, ""expected hardened derivation path"")
                .with_context(""child_index"", child.index()));
        }

        Ok(Self { inner: value })
    }
}
".
