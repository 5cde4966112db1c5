(** Model of the derived [Debug] impls of both crates, as calls of the builders of [FmtDebug]. *)
From Verif Require Import Base Str FmtDebug Error32 Version32 Path32 Meta32 Mnemonic39 Builtin39
  Generate39.

(** ** bip0032 *)
(** path/child.rs 6 and 78 *)
Definition child_dbg (c : N) : dbg := DTuple (lit "ChildNumber") [DRaw (dec c)].
Definition hchild_dbg (h : HardenedChildNumber) : dbg :=
  DTuple (lit "HardenedChildNumber") [child_dbg (hc_child h)].
(** path/mod.rs 20 and 134 *)
Definition path_dbg (p : list N) : dbg :=
  DStruct (lit "DerivationPath") [(lit "children", DList (map child_dbg p))].
Definition hpath_dbg (h : HardenedDerivationPath) : dbg :=
  DStruct (lit "HardenedDerivationPath") [(lit "inner", path_dbg (hp_inner h))].
(** xkey/payload/version.rs 6 and 164 *)
Definition version_dbg (v : Version) : dbg :=
  match v with
  | Public n => DTuple (lit "Public") [DRaw (dec n)]
  | Private n => DTuple (lit "Private") [DRaw (dec n)]
  end.
Definition known_dbg (k : KnownVersion) : dbg :=
  DRaw (match k with
        | Xpub => lit "Xpub" | Xprv => lit "Xprv" | Tpub => lit "Tpub" | Tprv => lit "Tprv"
        | Ypub => lit "Ypub" | Yprv => lit "Yprv"
        | YpubShWsh => lit "YpubShWsh" | YprvShWsh => lit "YprvShWsh"
        | Upub => lit "Upub" | Uprv => lit "Uprv"
        | UpubShWsh => lit "UpubShWsh" | UprvShWsh => lit "UprvShWsh"
        | Zpub => lit "Zpub" | Zprv => lit "Zprv"
        | ZpubWsh => lit "ZpubWsh" | ZprvWsh => lit "ZprvWsh"
        | Vpub => lit "Vpub" | Vprv => lit "Vprv"
        | VpubWsh => lit "VpubWsh" | VprvWsh => lit "VprvWsh"
        end).
(** error.rs 18 *)
Definition kind_dbg (k : ErrorKind) : dbg :=
  DRaw (match k with
        | InvalidPath => lit "InvalidPath" | InvalidPayload => lit "InvalidPayload"
        | InvalidVersion => lit "InvalidVersion" | InvalidKeyData => lit "InvalidKeyData"
        | InvalidDerivation => lit "InvalidDerivation"
        end).
(** xkey/core/mod.rs 13; arrays print like slices *)
Definition bytes_dbg (b : list byte) : dbg := DList (map (fun x => DRaw (dec (b2n x))) b).
Definition meta_dbg (m : Metadata) : dbg :=
  DStruct (lit "ExtendedKeyMetadata")
    [ (lit "depth", DRaw (dec (b2n (m_depth m))));
      (lit "parent_fingerprint", bytes_dbg (m_fingerprint m));
      (lit "child_number", DRaw (dec (m_child m)));
      (lit "chain_code", bytes_dbg (m_chain m)) ].

(** ** bip0039 *)
(** mnemonic/mod.rs 34 *)
Definition count_dbg (c : Count) : dbg :=
  DRaw (match c with
        | Words12 => lit "Words12" | Words15 => lit "Words15" | Words18 => lit "Words18"
        | Words21 => lit "Words21" | Words24 => lit "Words24"
        end).
(** mnemonic/phrase.rs 26 *)
Definition mode_dbg (m : DecodeMode) : dbg :=
  DRaw (match m with
        | ValidateOnly => lit "ValidateOnly"
        | BuildNormalizedPhrase => lit "BuildNormalizedPhrase"
        end).
(** error.rs 6; the word is a [String], escaped by core ([special] as in [Generate39]) *)
Definition error_dbg (special : N -> bool) (e : err39) : dbg :=
  match e with
  | BadWordCount n => DTuple (lit "BadWordCount") [DRaw (dec n)]
  | BadEntropyBitCount n => DTuple (lit "BadEntropyBitCount") [DRaw (dec n)]
  | UnknownWord w => DTuple (lit "UnknownWord") [DRaw (debug_str special w)]
  | InvalidChecksum => DRaw (lit "InvalidChecksum")
  end.
(** language/mod.rs 118; the marker types of 193 and 224 print the same names *)
Definition builtin_dbg (b : BuiltInLanguage) : dbg :=
  DRaw (match b with
        | BEnglish => lit "English" | BChineseSimplified => lit "ChineseSimplified"
        | BChineseTraditional => lit "ChineseTraditional" | BCzech => lit "Czech"
        | BFrench => lit "French" | BItalian => lit "Italian" | BJapanese => lit "Japanese"
        | BKorean => lit "Korean" | BPortuguese => lit "Portuguese" | BSpanish => lit "Spanish"
        end).
