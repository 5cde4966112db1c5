(** Model of bip0032/src/path/child.rs and bip0032/src/path/mod.rs. *)
From Verif Require Import Base Str Error32.

(** ** [u32::from_str] (core::num, radix 10).

    The characters are inspected as UTF-8 bytes, as core does. *)
Definition digit_of (b : byte) : option N :=
  let n := b2n b in if (48 <=? n) && (n <=? 57) then Some (n - 48) else None.

(** The loop used when the number of digits rules out overflow; the arithmetic is
    written with the wrap-around it would have. *)
Fixpoint parse_unchecked (acc : N) (l : list byte) : option N :=
  match l with
  | [] => Some acc
  | b :: l' =>
      match digit_of b with
      | None => None
      | Some d => parse_unchecked ((acc * 10 mod 2 ^ 32 + d) mod 2 ^ 32) l'
      end
  end.
(** The general loop with [checked_mul] and [checked_add]. *)
Fixpoint parse_checked (acc : N) (l : list byte) : option N :=
  match l with
  | [] => Some acc
  | b :: l' =>
      match digit_of b with
      | None => None
      | Some d =>
          if acc * 10 <? 2 ^ 32 then
            if acc * 10 + d <? 2 ^ 32 then parse_checked (acc * 10 + d) l' else None
          else None
      end
  end.
Definition parse_digits (l : list byte) : option N :=
  if (length l <=? 8)%nat then parse_unchecked 0 l else parse_checked 0 l.
Definition parse_u32 (s : str) : option N :=
  match utf8 s with
  | [] => None
  | b :: l =>
      if (b2n b =? 43) || (b2n b =? 45) then
        match l with
        | [] => None
        | _ => if b2n b =? 43 then parse_digits l else parse_digits (b :: l)
        end
      else parse_digits (b :: l)
  end.

(** ** child.rs *)

(** child.rs 6-7: a [u32] *)
Notation ChildNumber := N (only parsing).
(** child.rs 12 *)
Definition HARDENED_OFFSET : N := 0x80000000.

(** child.rs 15-22; [index] is a [u32]. *)
Definition child_new (index : N) (hardened : bool) : res Error ChildNumber :=
  if HARDENED_OFFSET <=? index then
    Err (with_context (err_new InvalidPath (lit "child index must be less than 2^31"))
           (lit "child_index") (dec index))
  else Ok (if hardened then index + HARDENED_OFFSET else index).

(** child.rs 25-27: [!0x8000_0000] is [0x7FFF_FFFF] *)
Definition child_index (c : ChildNumber) : N := N.land c 0x7FFFFFFF.
(** child.rs 30-32 *)
Definition child_is_hardened (c : ChildNumber) : bool := HARDENED_OFFSET <=? c.
(** child.rs 35-37 *)
Definition child_from_bytes (b : list byte) : ChildNumber := u32_from_be b.
(** child.rs 40-42 *)
Definition child_to_bytes (c : ChildNumber) : list byte := u32_to_be c.

(** child.rs 45-55 *)
Definition child_show (c : ChildNumber) : str :=
  dec (child_index c) ++ (if child_is_hardened c then lit "'" else []).

(** [str::strip_suffix] with a character, [str::strip_prefix] with a string *)
Fixpoint strip_suffix (c : N) (s : str) : option str :=
  match s with
  | [] => None
  | [d] => if d =? c then Some [] else None
  | d :: s' => option_map (cons d) (strip_suffix c s')
  end.
Fixpoint strip_prefix (p s : str) : option str :=
  match p, s with
  | [], _ => Some s
  | a :: p', b :: s' => if a =? b then strip_prefix p' s' else None
  | _ :: _, [] => None
  end.

(** child.rs 122-143 (and 57-63) *)
Definition parse_child_component (component : str) : res Error ChildNumber :=
  let '(number, hardened) :=
    match strip_suffix 39 component with
    | Some s => (s, true)
    | None =>
        match strip_suffix 104 component with
        | Some s => (s, true)
        | None =>
            match strip_suffix 72 component with
            | Some s => (s, true)
            | None => (component, false)
            end
        end
    end in
  if is_empty number then
    Err (with_context (err_new InvalidPath (lit "missing child index"))
           (lit "component") component)
  else
    match parse_u32 number with
    | None => Err (with_context (err_new InvalidPath (lit "invalid child index"))
                     (lit "component") component)
    | Some index => child_new index hardened
    end.

(** child.rs 77-79: the type does not enforce hardenedness by itself *)
Record HardenedChildNumber : Type := mkHC { hc_child : ChildNumber }.
(** child.rs 83-85 *)
Definition hchild_new (index : N) : res Error HardenedChildNumber :=
  res_map mkHC (child_new index true).
(** child.rs 88-90, 93-95 *)
Definition hchild_index (h : HardenedChildNumber) : N := child_index (hc_child h).
Definition hchild_to_bytes (h : HardenedChildNumber) : list byte := child_to_bytes (hc_child h).
(** child.rs 97-100 *)
Definition from_child_unchecked {E : Type} (dbg : profile) (c : ChildNumber)
    : res E HardenedChildNumber :=
  if dbg && negb (child_is_hardened c) then Panic else Ok (mkHC c).
(** child.rs 103-107 *)
Definition hchild_show (h : HardenedChildNumber) : str := child_show (hc_child h).
(** child.rs 109-120 *)
Definition hchild_try_from (c : ChildNumber) : res Error HardenedChildNumber :=
  if child_is_hardened c then Ok (mkHC c)
  else Err (with_context (err_new InvalidPath (lit "expected hardened child number"))
              (lit "child_index") (dec (child_index c))).

(** ** path/mod.rs *)

(** mod.rs 20-23, 26-29, 32-48 *)
Notation DerivationPath := (list N) (only parsing).
(** mod.rs 50-54 *)
Definition path_extend (p : DerivationPath) (more : list ChildNumber) : DerivationPath := p ++ more.

(** mod.rs 74-84 *)
Definition path_show (p : DerivationPath) : str :=
  fold_left (fun out c => out ++ lit "/" ++ child_show c) p (lit "m").

(** mod.rs 115-121: the loop over the components; [path] is the whole input. *)
Fixpoint parse_parts (path : str) (children : list ChildNumber) (parts : list str)
    : res Error DerivationPath :=
  match parts with
  | [] => Ok children
  | part :: rest =>
      if is_empty part then
        Err (with_context (err_new InvalidPath (lit "empty path component")) (lit "path") path)
      else
        let? c := parse_child_component part in
        parse_parts path (children ++ [c]) rest
  end.

(** mod.rs 86-125 *)
Definition path_parse (path : str) : res Error DerivationPath :=
  if is_empty path then
    Err (with_context (err_new InvalidPath (lit "derivation path is empty")) (lit "path") path)
  else if str_eqb path (lit "m") || str_eqb path (lit "M") then Ok []
  else
    let rest :=
      match strip_prefix (lit "m/") path with
      | Some s => s
      | None => match strip_prefix (lit "M/") path with Some s => s | None => path end
      end in
    if is_empty rest then
      Err (with_context (err_new InvalidPath (lit "empty path component")) (lit "path") path)
    else parse_parts path [] (split_on (fun c => c =? 47) rest).

(** mod.rs 133-137 *)
Record HardenedDerivationPath : Type := mkHP { hp_inner : DerivationPath }.

(** mod.rs 141-147: the iterator, run to its end *)
Fixpoint hchildren {E : Type} (dbg : profile) (l : list ChildNumber)
    : res E (list HardenedChildNumber) :=
  match l with
  | [] => Ok []
  | c :: l' =>
      let? h := from_child_unchecked dbg c in
      let? hs := hchildren dbg l' in
      Ok (h :: hs)
  end.
Definition hpath_children {E : Type} (dbg : profile) (p : HardenedDerivationPath)
    : res E (list HardenedChildNumber) := hchildren dbg (hp_inner p).

(** mod.rs 150-154 *)
Definition hpath_show (p : HardenedDerivationPath) : str := path_show (hp_inner p).

(** mod.rs 165-176 *)
Definition hpath_try_from (p : DerivationPath) : res Error HardenedDerivationPath :=
  match find (fun c => negb (child_is_hardened c)) p with
  | Some c => Err (with_context (err_new InvalidPath (lit "expected hardened derivation path"))
                     (lit "child_index") (dec (child_index c)))
  | None => Ok (mkHP p)
  end.

(** mod.rs 156-163 *)
Definition hpath_parse (s : str) : res Error HardenedDerivationPath :=
  let? p := path_parse s in hpath_try_from p.
