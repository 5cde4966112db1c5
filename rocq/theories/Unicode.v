(** The [unicode-normalization] crate (0.1) as used by
    bip0039/src/mnemonic/mod.rs:728-733 and bip0039/src/mnemonic/seed.rs:31-35:
    [is_nfkd_quick] and [nfkd()].

    The Unicode data is a parameter [ucd]; [UnicodeTables] provides the Unicode
    15.0 instance.  Theorems hold for every [ucd] satisfying [ucd_ok]
    (UnicodeProofs), so they do not depend on the exact Unicode version the crate
    was built with. *)
From Verif Require Import Base Str.

Record ucd : Type := {
  (** full compatibility decomposition (compatibility mapping or else canonical),
      except for Hangul syllables, which are decomposed algorithmically *)
  ucd_dec : N -> option (list N);
  (** canonical combining class *)
  ucd_ccc : N -> N
}.

Section WithData.
Variable U : ucd.

Definition is_hangul (c : N) : bool := (0xAC00 <=? c) && (c <? 0xAC00 + 11172).

(** normalize.rs, [decompose_hangul]. *)
Definition hangul_decomp (c : N) : list N :=
  let i := c - 0xAC00 in
  let l := 0x1100 + i / 588 in
  let v := 0x1161 + (i mod 588) / 28 in
  let t := i mod 28 in
  if t =? 0 then [l; v] else [l; v; 0x11A7 + t].

(** normalize.rs, [decompose] with [decompose_compatible]'s table. *)
Definition decompose (c : N) : list N :=
  if c <=? 0x7F then [c]
  else if is_hangul c then hangul_decomp c
  else match ucd_dec U c with Some d => d | None => [c] end.

(** [sort_by_key(|k| k.0)] on the pending buffer: stable sort by combining class. *)
Fixpoint insert_ccc (c : N) (l : list N) : list N :=
  match l with
  | [] => [c]
  | d :: l' => if ucd_ccc U c <? ucd_ccc U d then c :: l else d :: insert_ccc c l'
  end.
Definition sort_ccc (l : list N) : list N := fold_left (fun acc c => insert_ccc c acc) l [].

(** decompose.rs, [Decompositions::push_back]/[next]: a starter flushes the
    sorted pending non-starters, then is emitted itself. *)
Fixpoint reorder (pending : list N) (s : list N) : list N :=
  match s with
  | [] => sort_ccc pending
  | c :: s' =>
      if ucd_ccc U c =? 0 then sort_ccc pending ++ c :: reorder [] s'
      else reorder (pending ++ [c]) s'
  end.

(** [s.nfkd()] collected into a string. *)
Definition nfkd (s : str) : str := reorder [] (flat_map decompose s).

(** tables: [qc_nfkd(c) = No] exactly when [c] has a decomposition. *)
Definition qc_nfkd (c : N) : bool :=
  negb (is_hangul c) && match ucd_dec U c with Some _ => false | None => true end.

(** quick_check.rs, [is_normalized] specialised to [is_nfkd_quick]; [true] is
    [IsNormalized::Yes] (the NFKD table has no [Maybe]). *)
Fixpoint quick_from (last_cc : N) (s : str) : bool :=
  match s with
  | [] => true
  | c :: s' =>
      if c <=? 0x7F then quick_from 0 s'
      else
        let cc := ucd_ccc U c in
        if (cc <? last_cc) && negb (cc =? 0) then false
        else if qc_nfkd c then quick_from cc s' else false
  end.
Definition is_nfkd_quick (s : str) : bool := quick_from 0 s.

(** bip0039/src/mnemonic/mod.rs:729-733 [normalize_utf8]. *)
Definition normalize_utf8 (s : str) : str :=
  if is_nfkd_quick s then s else nfkd s.

End WithData.
