(** Model of the comparison operators of bip0039. *)
From Verif Require Import Base Str Language39 Mnemonic39 Builtin39.

(** mnemonic/mod.rs:34 and language/mod.rs:118, derived [Ord]: by the position of the variant. *)
Definition count_rank (c : Count) : N :=
  match c with Words12 => 0 | Words15 => 1 | Words18 => 2 | Words21 => 3 | Words24 => 4 end.
Definition count_cmp (c d : Count) : comparison := count_rank c ?= count_rank d.
Definition builtin_rank (b : BuiltInLanguage) : N :=
  match b with
  | BEnglish => 0 | BChineseSimplified => 1 | BChineseTraditional => 2 | BCzech => 3 | BFrench => 4
  | BItalian => 5 | BJapanese => 6 | BKorean => 7 | BPortuguese => 8 | BSpanish => 9
  end.
Definition builtin_cmp (b c : BuiltInLanguage) : comparison := builtin_rank b ?= builtin_rank c.
(** mod.rs:37 [#[default]] *)
Definition count_default : Count := Words12.

(** mnemonic/mod.rs:180, derived [PartialEq] ([PhantomData] values are equal). *)
Definition mnemonic_eqb (m n : Mnemonic) : bool :=
  str_eqb (m_phrase m) (m_phrase n) && bytes_eqb (m_entropy m) (m_entropy n).

(** language/mod.rs:66-83: a handle is two function pointers, compared by address.  [image] is
    the code of the program: the function at each address.  Rust promises neither that a
    function has one address nor that different functions have different ones. *)
Record image : Type := {
  word_code : N -> N -> option str;
  index_code : N -> str -> option N
}.
Record handle : Type := { word_addr : N; index_addr : N }.
Definition handle_eqb (a b : handle) : bool :=
  (word_addr a =? word_addr b) && (index_addr a =? index_addr b).
(** [h] is a result of [AnyLanguage::of::<L>()]. *)
Definition handle_of (I : image) (h : handle) (L : Language) : Prop :=
  (forall i, word_code I (word_addr h) i = lang_word_of L i) /\
  (forall w, index_code I (index_addr h) w = lang_index_of L w).
(** mnemonic/mod.rs:446-451, derived [PartialEq]. *)
Definition any_mnemonic_eqb (a b : handle * Mnemonic) : bool :=
  handle_eqb (fst a) (fst b) && mnemonic_eqb (snd a) (snd b).
