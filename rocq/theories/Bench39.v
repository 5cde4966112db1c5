(** Model of bip0039/benchmarks/src and bip0039/tests/generate.rs.

    Of the benchmarks only the closures that run this crate are modelled, not those of the other
    crates measured beside it.  A failed assertion, [unwrap] or [unreachable!] is [Panic]; [fill n] is
    what the random source writes into a buffer of [n] bytes; [black_box] is the identity.
    [Mnemonic] without a parameter is [Mnemonic<English>]. *)
From Verif Require Import Base Str Unicode Language39 Builtin39 Mnemonic39 Fuzz39.

(** generate.rs:5, from_entropy.rs:6, from_phrase.rs:5, to_seed.rs:5 *)
Definition WORDS : list N := [12; 15; 18; 24].

(** generate.rs 55-61, from_phrase.rs 73-79 and 120-126, to_seed.rs 64-70 *)
Definition bench_count (words : N) : res err39 Count :=
  match words with
  | 12 => Ok Words12
  | 15 => Ok Words15
  | 18 => Ok Words18
  | 24 => Ok Words24
  | _ => Panic
  end.

(** from_entropy.rs 8-16 *)
Definition bench_entropy_bytes (words : N) : res err39 nat :=
  match words with
  | 12 => Ok 16%nat
  | 15 => Ok 20%nat
  | 18 => Ok 24%nat
  | 24 => Ok 32%nat
  | _ => Panic
  end.

Section Bench.
Variable U : ucd.
Variable B : build.
Variable fill : nat -> list byte.
Local Notation L := (language_of BEnglish).

(** generate.rs 52-67: the match is outside the measured closure *)
Definition bench_generate_setup (words : N) : res err39 Count := bench_count words.
Definition bench_generate (count : Count) : res err39 str :=
  let? mnemonic := generate B L fill count in Ok (phrase mnemonic).

(** from_entropy.rs 77-92 *)
Definition bench_from_entropy_setup (words : N) : res err39 (list byte) :=
  let? n := bench_entropy_bytes words in Ok (fill n).
Definition bench_from_entropy (e : list byte) : res err39 str :=
  let? mnemonic := unwrap (from_entropy B L e) in Ok (phrase mnemonic).

(** from_phrase.rs 68-88 *)
Definition bench_from_phrase_setup (words : N) : res err39 str :=
  let? count := bench_count words in
  let? m := generate B L fill count in Ok (phrase m).
Definition bench_from_phrase (p : str) : res err39 Mnemonic := unwrap (from_phrase U L p).

(** from_phrase.rs 115-135; the setup is the same *)
Definition bench_from_normalized_phrase (p : str) : res err39 Mnemonic :=
  unwrap (from_normalized_phrase L p).

(** to_seed.rs 59-78 *)
Definition bench_to_seed_setup (words : N) : res err39 Mnemonic :=
  let? count := bench_count words in generate B L fill count.
Definition bench_to_seed (m : Mnemonic) : res err39 (list byte) := Ok (to_seed U m []).
End Bench.

(** tests/generate.rs 6-11; the two calls of [split_whitespace().count()] and [to_seed("").len()] *)
Definition test_generate_one (U : ucd) (B : build) (L : Language) (fill : nat -> list byte) (c : Count)
    : res err39 unit :=
  let? mnemonic := generate B L fill c in
  let? _ := assert (N.of_nat (length (split_whitespace (phrase mnemonic))) =? word_count c) in
  assert (length (to_seed U mnemonic []) =? 64)%nat.

(** tests/generate.rs 13-21: the five calls of the macro, each with its own draw *)
Definition test_generate_lang (U : ucd) (B : build) (L : Language) (draw : Count -> nat -> list byte)
    : res err39 unit :=
  let? _ := test_generate_one U B L (draw Words12) Words12 in
  let? _ := test_generate_one U B L (draw Words15) Words15 in
  let? _ := test_generate_one U B L (draw Words18) Words18 in
  let? _ := test_generate_one U B L (draw Words21) Words21 in
  test_generate_one U B L (draw Words24) Words24.

(** tests/generate.rs 23-41: the languages of the enabled features in source order *)
Definition test_languages : list BuiltInLanguage :=
  [BChineseSimplified; BChineseTraditional; BCzech; BEnglish; BFrench; BItalian; BJapanese; BKorean;
   BPortuguese; BSpanish].
Fixpoint test_generate_all (U : ucd) (B : build) (draw : BuiltInLanguage -> Count -> nat -> list byte)
    (ls : list BuiltInLanguage) : res err39 unit :=
  match ls with
  | [] => Ok tt
  | b :: rest =>
      let? _ := test_generate_lang U B (language_of b) (draw b) in
      test_generate_all U B draw rest
  end.
Definition builtin_is_english (b : BuiltInLanguage) : bool := match b with BEnglish => true | _ => false end.
Definition test_generate (U : ucd) (B : build) (enabled : BuiltInLanguage -> bool)
    (draw : BuiltInLanguage -> Count -> nat -> list byte) : res err39 unit :=
  test_generate_all U B draw (filter (fun b => builtin_is_english b || enabled b) test_languages).
