(** Model of the derived [Hash] and [Ord] of bip0039 in a build with some of the Cargo features. *)
From Verif Require Import Base Str Language39 Mnemonic39 Builtin39 Generate39 Compare39.

(** What [Hash] depends on: hashers are fed the bytes of an [isize] as they are in memory. *)
Record target : Type := { little_endian : bool; pointer_bytes : nat }.
Definition isize_bytes (T : target) (n : N) : list byte :=
  let b := be_bytes (pointer_bytes T) n in if little_endian T then rev b else b.

(** language/mod.rs:120-150: the variants in the order of the source, those a build compiles, and the
    number rustc gives each of them. *)
Definition source_order : list BuiltInLanguage :=
  [BEnglish; BChineseSimplified; BChineseTraditional; BCzech; BFrench; BItalian; BJapanese; BKorean;
   BPortuguese; BSpanish].
Definition compiled_variant (env : str -> bool) (b : BuiltInLanguage) : bool :=
  match variant_feature b with None => true | Some f => env (env_name f) end.
Definition compiled_variants (env : str -> bool) : list BuiltInLanguage :=
  filter (compiled_variant env) source_order.
Definition language_dec (a b : BuiltInLanguage) : {a = b} + {a <> b}.
Proof. decide equality. Defined.
Fixpoint position (b : BuiltInLanguage) (l : list BuiltInLanguage) : N :=
  match l with [] => 0 | x :: l => if language_dec x b then 0 else 1 + position b l end.
Definition discriminant (env : str -> bool) (b : BuiltInLanguage) : N := position b (compiled_variants env).

(** language/mod.rs:118, derived [Hash]: the discriminant, and nothing for an enum of one variant. *)
Definition builtin_hash (T : target) (env : str -> bool) (b : BuiltInLanguage) : list byte :=
  match compiled_variants env with
  | [_] => []
  | _ => isize_bytes T (discriminant env b)
  end.
(** language/mod.rs:118, derived [Ord]. *)
Definition builtin_ord (env : str -> bool) (a b : BuiltInLanguage) : comparison :=
  discriminant env a ?= discriminant env b.
(** mnemonic/mod.rs:34, derived [Hash]. *)
Definition count_hash (T : target) (c : Count) : list byte := isize_bytes T (count_rank c).
(** language/mod.rs:193 and :224, derived [Hash] of the marker types, which have no fields. *)
Definition marker_hash : list byte := [].
