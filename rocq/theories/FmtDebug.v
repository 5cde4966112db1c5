(** Model of the builders of core::fmt::builders that [#[derive(Debug)]] uses, for [{:?}] and
    [{:#?}].  A value's [Debug] impl is described by a tree of builder calls. *)
From Verif Require Import Base Str.

Inductive dbg : Type :=
| DRaw (s : str)                                 (* written directly: numbers, strings, unit variants *)
| DTuple (name : str) (fields : list dbg)        (* [debug_tuple(name).field(..)...finish()] *)
| DStruct (name : str) (fields : list (str * dbg)) (* [debug_struct] *)
| DList (items : list dbg).                      (* [debug_list] *)

(** [PadAdapter]: four spaces at the start of every line written through it *)
Fixpoint pad (on_newline : bool) (s : str) : str :=
  match s with
  | [] => []
  | c :: s' => (if on_newline then lit "    " else []) ++ c :: pad (c =? 10) s'
  end.

(** [DebugTuple::field] and [finish], [DebugStruct::field] and [finish],
    [DebugInner::entry] and [DebugList::finish]; [first] is [!has_fields] *)
Fixpoint debug (alternate : bool) (d : dbg) : str :=
  match d with
  | DRaw s => s
  | DTuple name fields =>
      name ++
      (fix loop (first : bool) (l : list dbg) : str :=
         match l with
         | [] => if first then [] else lit ")"
         | f :: l' =>
             (if alternate
              then (if first then lit "(" ++ [10] else []) ++ pad true (debug alternate f ++ lit "," ++ [10])
              else (if first then lit "(" else lit ", ") ++ debug alternate f) ++
             loop false l'
         end) true fields
  | DStruct name fields =>
      name ++
      (fix loop (first : bool) (l : list (str * dbg)) : str :=
         match l with
         | [] => if first then [] else if alternate then lit "}" else lit " }"
         | (k, f) :: l' =>
             (if alternate
              then (if first then lit " {" ++ [10] else []) ++
                   pad true (k ++ lit ": " ++ debug alternate f ++ lit "," ++ [10])
              else (if first then lit " { " else lit ", ") ++ k ++ lit ": " ++ debug alternate f) ++
             loop false l'
         end) true fields
  | DList items =>
      lit "[" ++
      (fix loop (first : bool) (l : list dbg) : str :=
         match l with
         | [] => lit "]"
         | f :: l' =>
             (if alternate
              then (if first then [10] else []) ++ pad true (debug alternate f ++ lit "," ++ [10])
              else (if first then [] else lit ", ") ++ debug alternate f) ++
             loop false l'
         end) true items
  end.
