(** The enumeration of built-in languages, bip0039/src/language/mod.rs:115-184. *)
From Verif Require Import Base Str Language39 BuildScript39.
From Verif Require Import Words_english Words_chinese_simplified Words_chinese_traditional
  Words_czech Words_french Words_italian Words_japanese Words_korean Words_portuguese Words_spanish.

(** language/mod.rs:120-150 [enum BuiltInLanguage] (all Cargo features on). *)
Inductive BuiltInLanguage : Type :=
| BEnglish | BChineseSimplified | BChineseTraditional | BCzech | BFrench
| BItalian | BJapanese | BKorean | BPortuguese | BSpanish.

(** The marker type of each variant (language/mod.rs:250-320). *)
Definition language_of (b : BuiltInLanguage) : Language :=
  match b with
  | BEnglish => English
  | BChineseSimplified => ChineseSimplified
  | BChineseTraditional => ChineseTraditional
  | BCzech => Czech
  | BFrench => French
  | BItalian => Italian
  | BJapanese => Japanese
  | BKorean => Korean
  | BPortuguese => Portuguese
  | BSpanish => Spanish
  end.

(** language/mod.rs:154-176 [as_any_language], :179-184 [From]. *)
Definition as_any_language (b : BuiltInLanguage) : AnyLanguage :=
  match b with
  | BEnglish => any_of English
  | BChineseSimplified => any_of ChineseSimplified
  | BChineseTraditional => any_of ChineseTraditional
  | BCzech => any_of Czech
  | BFrench => any_of French
  | BItalian => any_of Italian
  | BJapanese => any_of Japanese
  | BKorean => any_of Korean
  | BPortuguese => any_of Portuguese
  | BSpanish => any_of Spanish
  end.

(** The word-list file each variant is generated from (build.rs:33-49 and the
    files in bip0039/words). *)
Definition file_of (b : BuiltInLanguage) : list byte :=
  match b with
  | BEnglish => file_english
  | BChineseSimplified => file_chinese_simplified
  | BChineseTraditional => file_chinese_traditional
  | BCzech => file_czech
  | BFrench => file_french
  | BItalian => file_italian
  | BJapanese => file_japanese
  | BKorean => file_korean
  | BPortuguese => file_portuguese
  | BSpanish => file_spanish
  end.
