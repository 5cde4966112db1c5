(** Model of bip0039/src/language/mod.rs and wordlist.rs. *)
From Verif Require Import Base Str.

(** language/mod.rs:31-43 [trait Language]: a user may supply any functions.
    [word_of] returning [None] stands for a panic (debug assertion or array
    bound).  *)
Record Language : Type := {
  lang_words : list str;
  lang_word_of : N -> option str;
  lang_index_of : str -> option N
}.

(** language/mod.rs:36-39, default [word_of]: [debug_assert!(index < 2048)] and
    [words()[index]]. *)
Definition default_word_of (words : list str) (index : N) : option str :=
  if index <? 2048 then nth_error words (N.to_nat index) else None.

(** wordlist.rs:16-24 [struct Wordlist]: the generated table and [phf::Map].  The
    map is modelled by its entries (keys are distinct) and first-match lookup. *)
Record Wordlist : Type := {
  wl_words : list str;
  wl_index : list (str * N)
}.

Fixpoint phf_get (m : list (str * N)) (w : str) : option N :=
  match m with
  | [] => None
  | (k, i) :: m' => if str_eqb w k then Some i else phf_get m' w
  end.

(** language/mod.rs:45-55: blanket [impl Language for T: WordlistProvider].
    The index is stored as u16 and widened. *)
Definition wordlist_language (wl : Wordlist) : Language := {|
  lang_words := wl_words wl;
  lang_word_of := default_word_of (wl_words wl);
  lang_index_of := fun w => phf_get (wl_index wl) w
|}.

(** language/mod.rs:66-70 [struct AnyLanguage]; :98-100 [of]; the two accessors
    :104-112 just call the stored functions.  Pointer equality of two handles
    (:78-83) is in [Compare39]. *)
Record AnyLanguage : Type := {
  any_word_of : N -> option str;
  any_index_of : str -> option N
}.
Definition any_of (L : Language) : AnyLanguage := {|
  any_word_of := lang_word_of L;
  any_index_of := lang_index_of L
|}.
