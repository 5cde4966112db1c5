(** Model of bip0039/fuzz/fuzz_targets: from_entropy.rs, from_phrase.rs, to_seed.rs.

    A target is a function from the fuzzer's input; a failed assertion, [unwrap],
    [expect], [panic!] or out-of-bounds access is [Panic].  [String::from_utf8_lossy]
    is a parameter [lossy], so the targets are run on every string it could return. *)
From Verif Require Import Base Str Unicode Language39 Mnemonic39 Eqb39 Words_english Builtin39.

Definition unwrap {E E' A : Type} (r : res E A) : res E' A :=
  match r with Ok a => Ok a | _ => Panic end.
Definition unwrap_err {E E' A : Type} (r : res E A) : res E' E :=
  match r with Err e => Ok e | _ => Panic end.
Definition assert {E : Type} (b : bool) : res E unit := if b then Ok tt else Panic.

(** from_entropy.rs 8-31, to_seed.rs 21-45: the arrays of the five constructors *)
Inductive EntropyInput : Type :=
| In12 (e : list byte) | In15 (e : list byte) | In18 (e : list byte) | In21 (e : list byte) | In24 (e : list byte).
Definition as_slice (i : EntropyInput) : list byte :=
  match i with In12 e | In15 e | In18 e | In21 e | In24 e => e end.
(** The lengths in the array types *)
Definition entropy_input_wf (i : EntropyInput) : Prop :=
  match i with
  | In12 e => length e = 16%nat
  | In15 e => length e = 20%nat
  | In18 e => length e = 24%nat
  | In21 e => length e = 28%nat
  | In24 e => length e = 32%nat
  end.

Section Targets.
Variable U : ucd.
Variable B : build.
Variable lossy : list byte -> str.
Local Notation L := (language_of BEnglish).

(** from_entropy.rs 33-52 *)
Definition fuzz_from_entropy (input : EntropyInput) : res err39 unit :=
  let e := as_slice input in
  let? m1 := unwrap (from_entropy B L e) in
  let? _ := assert (bytes_eqb (entropy m1) e) in
  let p := phrase m1 in
  let? m2 := unwrap (from_phrase U L p) in
  let? _ := assert (bytes_eqb (entropy m2) e) in
  let? _ := assert (str_eqb (phrase m2) p) in
  let? m3 := unwrap (from_entropy B L e) in
  let? _ := assert (str_eqb (phrase m3) p) in
  assert (bytes_eqb (entropy m3) e).

(** to_seed.rs 53-65 *)
Definition fuzz_to_seed (input : EntropyInput) (passphrase_bytes : list byte) : res err39 unit :=
  let? mnemonic := unwrap (from_entropy B L (as_slice input)) in
  let p := phrase mnemonic in
  let passphrase := lossy passphrase_bytes in
  let seed1 := to_seed U mnemonic passphrase in
  let? mnemonic2 := unwrap (from_phrase U L p) in
  let seed2 := to_seed U mnemonic2 passphrase in
  assert (bytes_eqb seed1 seed2).

(** from_phrase.rs 29-32 *)
Definition lossy_string (bytes : list byte) (max_len : nat) : str :=
  lossy (firstn (Nat.min (length bytes) max_len) bytes).

(** from_phrase.rs 34-56 *)
Definition mess_char (i c : N) : str :=
  if c =? 32 then
    match i mod 6 with
    | 0 => [32] | 1 => [9] | 2 => [10] | 3 => [13] | 4 => [32; 32] | _ => [0xA0]
    end
  else [c].
Fixpoint mess_from (i : N) (s : str) : str :=
  match s with [] => [] | c :: s' => mess_char i c ++ mess_from (i + 1) s' end.
Definition make_whitespace_mess (s : str) : str := mess_from 0 s.

(** [words[i] = w] *)
Definition set_word (words : list str) (i : nat) (w : str) : res err39 (list str) :=
  if (i <? length words)%nat then Ok (firstn i words ++ w :: skipn (S i) words) else Panic.

(** from_phrase.rs 58-68 *)
Definition flip_some_words_to_unknown (s : str) : res err39 str :=
  let words := split_whitespace s in
  if is_empty words then Ok (lit "not_in_wordlist")
  else
    let idx := Nat.min (length words / 2) (length words - 1) in
    let? words := set_word words idx (lit "not_in_wordlist") in
    Ok (join [32] words).

(** from_phrase.rs 70-92 *)
Definition flip_checksum_like (s : str) : res err39 str :=
  let words := split_whitespace s in
  if is_empty words then Ok s
  else
    let last := (length words - 1)%nat in
    match nth_error words last with
    | None => Panic
    | Some orig =>
        let? words :=
          match lang_index_of L orig with
          | Some i =>
              match lang_word_of L ((i + 1) mod 2048) with
              | Some new => set_word words last new
              | None => Panic
              end
          | None => set_word words last (lit "abandon")
          end in
        Ok (join [32] words)
    end.

(** from_phrase.rs 127-149: the perturbed phrases *)
Definition fuzz_negative (normalized : str) : res err39 unit :=
  let? bad_unknown := flip_some_words_to_unknown normalized in
  let? err := unwrap_err (from_phrase U L bad_unknown) in
  let? _ := match err with
            | UnknownWord word => assert (str_eqb word (lit "not_in_wordlist"))
            | _ => Panic
            end in
  let? bad_checksum := flip_checksum_like normalized in
  match validate U L bad_checksum with
  | Ok _ =>
      let? mm := unwrap (from_phrase U L bad_checksum) in
      unwrap (validate U L (phrase mm))
  | Err err => match err with InvalidChecksum => Ok tt | _ => Panic end
  | Panic => Panic
  end.

(** from_phrase.rs 94-152; [max_phrase_len] is a u16. *)
Definition fuzz_from_phrase (phrase_bytes : list byte) (do_negative messy_whitespace : bool)
    (max_phrase_len : N) : res err39 unit :=
  let max_phrase_len := N.to_nat (N.min (N.max max_phrase_len 1) (16 * 1024)) in
  let s := lossy_string phrase_bytes max_phrase_len in
  let s := if messy_whitespace then make_whitespace_mess s else s in
  match validate U L s with
  | Panic => Panic
  | _ =>
      match from_phrase U L s with
      | Ok m =>
          let normalized := phrase m in
          let? _ := assert (negb (is_empty normalized)) in
          let? _ := assert (match validate U L normalized with Ok _ => true | _ => false end) in
          let? m2 := unwrap (from_phrase U L normalized) in
          let? _ := assert (str_eqb (phrase m2) normalized) in
          let? _ := assert (bytes_eqb (entropy m2) (entropy m)) in
          if do_negative then fuzz_negative normalized else Ok tt
      | Err _ => match validate U L s with Panic => Panic | _ => Ok tt end
      | Panic => Panic
      end
  end.
End Targets.
