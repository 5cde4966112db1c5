(** Model of the rest of bip0039/build.rs: the text of the generated source files and the
    loop over the languages; and of the Cargo features that select languages. *)
From Verif Require Import Base Str Language39 BuildScript39 Builtin39.

(** ** [{:?}] of a string (core, [impl Debug for str]) *)
(** [char::escape_unicode]: lower-case hexadecimal without leading zeros. *)
Definition hexl (n : N) : N := if n <? 10 then 48 + n else 87 + n.
Fixpoint hex_fuel (fuel : nat) (n : N) (acc : str) : str :=
  match fuel with
  | O => acc
  | S f => let acc' := hexl (n mod 16) :: acc in if n <? 16 then acc' else hex_fuel f (n / 16) acc'
  end.
Definition hex_min (n : N) : str := hex_fuel (S (N.to_nat (N.size n))) n [].
(** [char::escape_debug_ext] with double quotes escaped and single ones not; [special] tells
    which other characters are escaped (in core: Grapheme_Extend and unprintable ones). *)
Definition escape_char (special : N -> bool) (c : N) : str :=
  if c =? 0 then [92; 48]
  else if c =? 9 then [92; 116]
  else if c =? 13 then [92; 114]
  else if c =? 10 then [92; 110]
  else if c =? 34 then [92; 34]
  else if c =? 92 then [92; 92]
  else if special c then [92; 117; 123] ++ hex_min c ++ [125]
  else [c].
Definition debug_str (special : N -> bool) (w : str) : str := [34] ++ flat_map (escape_char special) w ++ [34].

(** ** build.rs:69-122 [generate_one], the text written *)
Definition header (name : str) : str :=
  lit "// AUTO-GENERATED by build.rs. DO NOT EDIT." ++ [10] ++ lit "// Source: " ++ name ++ [10] ++ [10].
Definition WORDS_HEAD : str := lit "pub static WORDS: [&str; 2048] = [" ++ [10].
Definition WORDS_FOOT : str := lit "];" ++ [10] ++ [10].
Definition INDEX_HEAD : str := lit "pub static INDEX: ::phf::Map<&'static str, u16> = ::phf::phf_map! {" ++ [10].
Definition INDEX_FOOT : str := lit "};" ++ [10] ++ [10].
Definition WORDLIST_ITEM : str :=
  lit "pub static WORDLIST: crate::language::Wordlist = crate::language::Wordlist {" ++ [10] ++ [9] ++
  lit "words: &WORDS," ++ [10] ++ [9] ++ lit "index: &INDEX," ++ [10] ++ lit "};" ++ [10].
Definition words_line (special : N -> bool) (w : str) : str :=
  lit "    " ++ debug_str special w ++ lit "," ++ [10].
Definition index_line (special : N -> bool) (p : str * N) : str :=
  lit "    " ++ debug_str special (fst p) ++ lit " => " ++ dec (snd p) ++ lit "u16," ++ [10].
Definition source_text (special : N -> bool) (name : str) (wl : Wordlist) : str :=
  header name ++ WORDS_HEAD ++ flat_map (words_line special) (wl_words wl) ++ WORDS_FOOT ++
  INDEX_HEAD ++ flat_map (index_line special) (wl_index wl) ++ INDEX_FOOT ++ WORDLIST_ITEM.

(** ** build.rs:22-67 [main] *)
(** build.rs:33-49: language, file name, feature variable. *)
Definition langs : list (str * str * option str) := [
  (lit "english", lit "english.txt", None);
  (lit "chinese_simplified", lit "chinese_simplified.txt", Some (lit "CARGO_FEATURE_CHINESE_SIMPLIFIED"));
  (lit "chinese_traditional", lit "chinese_traditional.txt", Some (lit "CARGO_FEATURE_CHINESE_TRADITIONAL"));
  (lit "czech", lit "czech.txt", Some (lit "CARGO_FEATURE_CZECH"));
  (lit "french", lit "french.txt", Some (lit "CARGO_FEATURE_FRENCH"));
  (lit "italian", lit "italian.txt", Some (lit "CARGO_FEATURE_ITALIAN"));
  (lit "japanese", lit "japanese.txt", Some (lit "CARGO_FEATURE_JAPANESE"));
  (lit "korean", lit "korean.txt", Some (lit "CARGO_FEATURE_KOREAN"));
  (lit "portuguese", lit "portuguese.txt", Some (lit "CARGO_FEATURE_PORTUGUESE"));
  (lit "spanish", lit "spanish.txt", Some (lit "CARGO_FEATURE_SPANISH"))].
Inductive main_err : Type :=
| MissingFile (name : str)
| BadFile (lang : str) (e : build_err).
(** build.rs:80 *)
Definition out_name (lang : str) : str := lit "bip0039_wordlist_" ++ lang ++ lit ".rs".
(** build.rs:52-64; [dir] is the words directory, [env] tells which variables are set.  The
    result lists the files written with their text. *)
Fixpoint main_loop (special : N -> bool) (dir : str -> option (list byte)) (env : str -> bool)
    (ls : list (str * str * option str)) : res main_err (list (str * str)) :=
  match ls with
  | [] => Ok []
  | (lang, file, feature_env) :: ls' =>
      if match feature_env with Some v => negb (env v) | None => false end then main_loop special dir env ls'
      else
        match dir file with
        | None => Err (MissingFile file)
        | Some bytes =>
            match generate_one bytes with
            | Ok wl =>
                let? rest := main_loop special dir env ls' in
                Ok ((out_name lang, source_text special file wl) :: rest)
            | Err e => Err (BadFile lang e)
            | Panic => Panic
            end
        end
  end.
Definition build_main (special : N -> bool) (dir : str -> option (list byte)) (env : str -> bool) :=
  main_loop special dir env langs.

(** ** Cargo features *)
(** bip0039/Cargo.toml:35-62 (features of dependencies left out; [rand] is the feature of
    the optional dependency). *)
Definition feature_table : list (str * list str) := [
  (lit "default", [lit "std"; lit "rand"]);
  (lit "std", []);
  (lit "rand", []);
  (lit "all-languages", [lit "chinese-simplified"; lit "chinese-traditional"; lit "czech"; lit "french";
     lit "italian"; lit "japanese"; lit "korean"; lit "portuguese"; lit "spanish"]);
  (lit "chinese-simplified", []);
  (lit "chinese-traditional", []);
  (lit "czech", []);
  (lit "french", []);
  (lit "italian", []);
  (lit "japanese", []);
  (lit "korean", []);
  (lit "portuguese", []);
  (lit "spanish", [])].
(** The variable Cargo sets for a feature: upper case, [-] becomes [_]. *)
Definition up (c : N) : N := if (97 <=? c) && (c <=? 122) then c - 32 else if c =? 45 then 95 else c.
Definition env_name (f : str) : str := lit "CARGO_FEATURE_" ++ map up f.

(** src/language/wordlist.rs:37-88: the module of a language, the file it includes and its
    [cfg(feature)]. *)
Definition module_of (b : BuiltInLanguage) : str * str * option str :=
  match b with
  | BEnglish => (lit "english", lit "bip0039_wordlist_english.rs", None)
  | BChineseSimplified => (lit "chinese_simplified", lit "bip0039_wordlist_chinese_simplified.rs", Some (lit "chinese-simplified"))
  | BChineseTraditional => (lit "chinese_traditional", lit "bip0039_wordlist_chinese_traditional.rs", Some (lit "chinese-traditional"))
  | BCzech => (lit "czech", lit "bip0039_wordlist_czech.rs", Some (lit "czech"))
  | BFrench => (lit "french", lit "bip0039_wordlist_french.rs", Some (lit "french"))
  | BItalian => (lit "italian", lit "bip0039_wordlist_italian.rs", Some (lit "italian"))
  | BJapanese => (lit "japanese", lit "bip0039_wordlist_japanese.rs", Some (lit "japanese"))
  | BKorean => (lit "korean", lit "bip0039_wordlist_korean.rs", Some (lit "korean"))
  | BPortuguese => (lit "portuguese", lit "bip0039_wordlist_portuguese.rs", Some (lit "portuguese"))
  | BSpanish => (lit "spanish", lit "bip0039_wordlist_spanish.rs", Some (lit "spanish"))
  end.
(** src/language/mod.rs:245-315 [define_builtin_language]: the module used by the marker type
    and the [cfg(feature)] of the type and its implementations. *)
Definition marker_of (b : BuiltInLanguage) : str * option str :=
  match b with
  | BEnglish => (lit "english", None)
  | BChineseSimplified => (lit "chinese_simplified", Some (lit "chinese-simplified"))
  | BChineseTraditional => (lit "chinese_traditional", Some (lit "chinese-traditional"))
  | BCzech => (lit "czech", Some (lit "czech"))
  | BFrench => (lit "french", Some (lit "french"))
  | BItalian => (lit "italian", Some (lit "italian"))
  | BJapanese => (lit "japanese", Some (lit "japanese"))
  | BKorean => (lit "korean", Some (lit "korean"))
  | BPortuguese => (lit "portuguese", Some (lit "portuguese"))
  | BSpanish => (lit "spanish", Some (lit "spanish"))
  end.
(** src/language/mod.rs:119-150 (variants) and :155-175 (match arms, with the same [cfg]s). *)
Definition variant_feature (b : BuiltInLanguage) : option str :=
  match b with
  | BEnglish => None
  | BChineseSimplified => Some (lit "chinese-simplified")
  | BChineseTraditional => Some (lit "chinese-traditional")
  | BCzech => Some (lit "czech")
  | BFrench => Some (lit "french")
  | BItalian => Some (lit "italian")
  | BJapanese => Some (lit "japanese")
  | BKorean => Some (lit "korean")
  | BPortuguese => Some (lit "portuguese")
  | BSpanish => Some (lit "spanish")
  end.
(** The file in bip0039/words of each language. *)
Definition words_file (b : BuiltInLanguage) : str :=
  match b with
  | BEnglish => lit "english.txt"
  | BChineseSimplified => lit "chinese_simplified.txt"
  | BChineseTraditional => lit "chinese_traditional.txt"
  | BCzech => lit "czech.txt"
  | BFrench => lit "french.txt"
  | BItalian => lit "italian.txt"
  | BJapanese => lit "japanese.txt"
  | BKorean => lit "korean.txt"
  | BPortuguese => lit "portuguese.txt"
  | BSpanish => lit "spanish.txt"
  end.
