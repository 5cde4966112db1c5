(** A definition of what the functions read by [RustSyntax] do: an evaluator for safe Rust without recursion.

    - Integers carry their type.  A literal without suffix has type [Lit] until it meets a typed operand, a
      declared type or a typed variable.  [+], [-], [*], [<<] and [>>] panic on overflow with debug assertions
      and wrap without.
    - A variable is an entry of the environment; blocks drop their entries.  [&mut] of a place is [VRef], the
      position of the variable and the way to the part; a shared reference is the value.  A function gets the
      values behind its [&mut] arguments, and what it leaves in them is written back.
    - Closures see the variables of the place where they are made as they were then, and cannot change them.
    - [Zeroizing], capacities and lifetimes are without effect; iterators are lists.
    - A [Formatter] is the text written so far.  [write!] knows [{}] and [{name}].
    - [parse] without a type is that of [ChildNumber], the type inferred in bip0032/src/path/mod.rs 121, the only
      such call.  [T::default()] is derived.
    - Library functions are those of [builtin_fn], [builtin_method] and [call_higher]. *)
From Coq Require Export String Ascii.
From Verif Require Import Base Str Sha2 Language39 Mnemonic39 Path32.
From Verif Require Export RustSyntax.
From Coq Require Import List.
Local Open Scope string_scope.
Local Open Scope N_scope.
Local Open Scope list_scope.

Inductive ity : Type := U8 | U32 | U64 | Usize | Lit.
Inductive step : Type := SField (f : string) | SIndex (i : nat) | SPayload.
Inductive value : Type :=
| VInt (t : ity) (n : N) | VBool (b : bool) | VUnit | VStr (s : str) | VChar (c : N)
| VBytes (l : list byte)                       (* [u8; n], &[u8], Vec<u8> *)
| VList (l : list value) | VTup (l : list value)
| VRec (t : string) (fs : list (string * value))
| VCon (t c : string) (l : list value)         (* a variant of an enum *)
| VClo (owner : string) (ps : list (pat * option ty)) (b : expr) (seen : list (string * value))
| VFn (p : list string)
| VRef (level : nat) (way : list step)
| VLang (L : AnyLanguage).
Definition env : Type := list (string * value).

Inductive fault : Type := Panicked | Stuck | OutOfFuel.
Inductive jump : Type := Returned (v : value) | Broke | Continued.
Inductive out (A : Type) : Type := Val (a : A) (r : env) | Jump (j : jump) (r : env) | Fault (f : fault).
Arguments Val {A}. Arguments Jump {A}. Arguments Fault {A}.
Definition obind {A C : Type} (m : out A) (k : A -> env -> out C) : out C :=
  match m with Val a r => k a r | Jump j r => Jump j r | Fault f => Fault f end.
Notation "'do' x , r <- m ; k" := (obind m (fun x r => k)) (at level 200, x pattern, r name, right associativity).
(** the result of a primitive *)
Inductive prim : Type := Got (v : value) | Update (v self : value) | Fails (f : fault).
Definition from_opt (o : option value) (r : env) : out value :=
  match o with Some v => Val v r | None => Fault Stuck end.
Definition from_prim (p : prim) (r : env) : out value :=
  match p with Got v => Val v r | Update v _ => Val v r | Fails f => Fault f end.

(** ** Variables and places *)
Fixpoint size (r : env) : nat := match r with [] => O | _ :: r' => S (size r') end.
Fixpoint push_all (bs r : env) : env := match bs with [] => r | b :: bs' => b :: push_all bs' r end.
Fixpoint snoc (way : list step) (s : step) : list step :=
  match way with [] => [s] | x :: way' => x :: snoc way' s end.
(** the variables of the first [k] levels *)
Fixpoint keep (k : nat) (r : env) : env :=
  if Nat.eqb (size r) k then r else match r with [] => [] | _ :: r' => keep k r' end.
(** the values of the last [k] variables, the last one last *)
Fixpoint top_values (k : nat) (r : env) (acc : list value) : list value :=
  match k, r with S k', (_, v) :: r' => top_values k' r' (v :: acc) | _, _ => acc end.
Fixpoint find_var (x : string) (r : env) : option (nat * value) :=
  match r with
  | [] => None
  | (y, v) :: r' => if String.eqb y x then Some (size r', v) else find_var x r'
  end.
Fixpoint read_level (k : nat) (r : env) : option value :=
  match r with
  | [] => None
  | (_, v) :: r' => if Nat.eqb (size r') k then Some v else read_level k r'
  end.
Fixpoint write_level (k : nat) (w : value) (r : env) : option env :=
  match r with
  | [] => None
  | (y, v) :: r' =>
      if Nat.eqb (size r') k then Some ((y, w) :: r')
      else match write_level k w r' with Some r'' => Some ((y, v) :: r'') | None => None end
  end.
Fixpoint field (f : string) (fs : list (string * value)) : option value :=
  match fs with
  | [] => None
  | (g, v) :: fs' => if String.eqb g f then Some v else field f fs'
  end.
Fixpoint set_field (f : string) (w : value) (fs : list (string * value)) : option (list (string * value)) :=
  match fs with
  | [] => None
  | (g, v) :: fs' =>
      if String.eqb g f then Some ((g, w) :: fs')
      else match set_field f w fs' with Some l => Some ((g, v) :: l) | None => None end
  end.
Definition take_step (v : value) (s : step) : option value :=
  match s, v with
  | SField f, VRec _ fs => field f fs
  | SIndex i, VBytes l => match nth_error l i with Some b => Some (VInt U8 (b2n b)) | None => None end
  | SIndex i, VList l => nth_error l i
  | SPayload, VCon _ _ [w] => Some w
  | _, _ => None
  end.
Fixpoint read_way (v : value) (way : list step) : option value :=
  match way with
  | [] => Some v
  | s :: way' => match take_step v s with Some w => read_way w way' | None => None end
  end.
Definition put_step (v : value) (s : step) (w : value) : option value :=
  match s, v with
  | SField f, VRec t fs => match set_field f w fs with Some l => Some (VRec t l) | None => None end
  | SIndex i, VBytes l =>
      match w with
      | VInt _ n => if Nat.ltb i (length l) then Some (VBytes (upd i (n2b n) l)) else None
      | _ => None
      end
  | SIndex i, VList l => if Nat.ltb i (length l) then Some (VList (upd i w l)) else None
  | SPayload, VCon t c [_] => Some (VCon t c [w])
  | _, _ => None
  end.
Fixpoint write_way (v : value) (way : list step) (w : value) : option value :=
  match way with
  | [] => Some w
  | s :: way' =>
      match take_step v s with
      | Some u => match write_way u way' w with Some u' => put_step v s u' | None => None end
      | None => None
      end
  end.
Definition read_place (k : nat) (way : list step) (r : env) : option value :=
  match read_level k r with Some v => read_way v way | None => None end.
Definition write_place (k : nat) (way : list step) (w : value) (r : env) : option env :=
  match read_level k r with
  | Some v => match write_way v way w with Some v' => write_level k v' r | None => None end
  | None => None
  end.
Definition deref (v : value) (r : env) : option value :=
  match v with VRef k way => read_place k way r | _ => Some v end.
(** ** Types *)
Definition int_type (t : ty) : option ity :=
  match t with
  | TyName [s] =>
      if String.eqb s "u8" then Some U8 else if String.eqb s "u32" then Some U32
      else if String.eqb s "u64" then Some U64 else if String.eqb s "usize" then Some Usize else None
  | _ => None
  end.
Definition coerce (t : ty) (v : value) : value :=
  match int_type t with
  | Some i => match v with VInt Lit n => VInt i n | _ => v end
  | None => v
  end.
Definition coerce_opt (t : option ty) (v : value) : value :=
  match t with Some t => coerce t v | None => v end.
(** a literal assigned to a variable *)
Definition coerce_like (old v : value) : value :=
  match v, old with VInt Lit n, VInt i _ => VInt i n | _, _ => v end.
Definition suffix_type (s : string) : ity :=
  match int_type (TyName [s]) with Some i => i | None => Lit end.
Definition type_of (v : value) : string :=
  match v with VRec t _ => t | VCon t _ _ => t | _ => "" end.

(** ** Operators *)
Definition ity_eqb (a b : ity) : bool :=
  match a, b with U8, U8 | U32, U32 | U64, U64 | Usize, Usize | Lit, Lit => true | _, _ => false end.
Definition unify (a b : ity) : option ity :=
  match a, b with
  | Lit, _ => Some b
  | _, Lit => Some a
  | _, _ => if ity_eqb a b then Some a else None
  end.
Section Build.
Variable B : build.
Definition width (t : ity) : N :=
  match t with U8 => 8 | U32 => 32 | U64 => 64 | Usize => b_usize_bits B | Lit => 32 end.
(** a result that may be too large *)
Definition fit (t : ity) (n : N) : prim :=
  if n <? 2 ^ width t then Got (VInt t n)
  else if b_debug B then Fails Panicked else Got (VInt t (n mod 2 ^ width t)).
Definition shift_by (t : ity) (k : N) : option N :=
  if k <? width t then Some k else if b_debug B then None else Some (k mod width t).
Definition arith (op : punct) (t : ity) (a b : N) : prim :=
  match op with
  | PPlus => fit t (a + b)
  | PMinus =>
      if b <=? a then Got (VInt t (a - b))
      else if b_debug B then Fails Panicked else Got (VInt t (a + 2 ^ width t - b))
  | PStar => fit t (a * b)
  | PSlash => if b =? 0 then Fails Panicked else Got (VInt t (a / b))
  | PPercent => if b =? 0 then Fails Panicked else Got (VInt t (a mod b))
  | PAnd => Got (VInt t (N.land a b))
  | POr => Got (VInt t (N.lor a b))
  | PCaret => Got (VInt t (N.lxor a b))
  | PEqEq => Got (VBool (a =? b))
  | PNe => Got (VBool (negb (a =? b)))
  | PLt => Got (VBool (a <? b))
  | PLe => Got (VBool (a <=? b))
  | PGt => Got (VBool (b <? a))
  | PGe => Got (VBool (b <=? a))
  | _ => Fails Stuck
  end.
Definition binop (op : punct) (v w : value) : prim :=
  match v, w with
  | VInt t a, VInt u b =>
      match op with
      | PShl => match shift_by t b with Some k => Got (VInt t (N.shiftl a k mod 2 ^ width t)) | None => Fails Panicked end
      | PShr => match shift_by t b with Some k => Got (VInt t (N.shiftr a k)) | None => Fails Panicked end
      | _ => match unify t u with Some i => arith op i a b | None => Fails Stuck end
      end
  | VStr a, VStr b =>
      match op with
      | PEqEq => Got (VBool (str_eqb a b)) | PNe => Got (VBool (negb (str_eqb a b))) | _ => Fails Stuck
      end
  | VBytes a, VBytes b =>
      match op with
      | PEqEq => Got (VBool (bytes_eqb a b)) | PNe => Got (VBool (negb (bytes_eqb a b))) | _ => Fails Stuck
      end
  | _, _ => Fails Stuck
  end.
Definition unop (op : punct) (v : value) : prim :=
  match op, v with
  | PBang, VBool b => Got (VBool (negb b))
  | PBang, VInt t n => Got (VInt t (2 ^ width t - 1 - n))
  | PStar, _ => Got v
  | _, _ => Fails Stuck
  end.
Definition cast (t : ty) (v : value) : prim :=
  match v, int_type t with
  | VInt _ n, Some i => Got (VInt i (n mod 2 ^ width i))
  | _, _ => Fails Stuck
  end.

(** ** Library *)
Definition some (v : value) : value := VCon "Option" "Some" [v].
Definition none : value := VCon "Option" "None" [].
Definition ok (v : value) : value := VCon "Result" "Ok" [v].
Definition err (v : value) : value := VCon "Result" "Err" [v].
Definition usize (n : nat) : value := VInt Usize (N.of_nat n).

Definition builtin_fn (t f : string) (args : list value) : option prim :=
  if String.eqb t "String" && String.eqb f "with_capacity" then Some (Got (VStr []))
  else if String.eqb t "Sha256" && String.eqb f "digest" then
    match args with [VBytes l] => Some (Got (VBytes (sha256 l))) | _ => None end
  else if String.eqb t "Vec" && (String.eqb f "new" || String.eqb f "with_capacity") then Some (Got (VList []))
  else if String.eqb t "u32" && String.eqb f "from_be_bytes" then
    match args with [VBytes l] => Some (Got (VInt U32 (u32_from_be l))) | _ => None end
  else None.
Definition str_option (o : option str) : value := match o with Some s => some (VStr s) | None => none end.
Definition builtin_method (m : string) (self : value) (args : list value) : prim :=
  match self, args with
  | VStr s, [] =>
      if String.eqb m "is_empty" then Got (VBool (is_empty s))
      else if String.eqb m "split_whitespace" then Got (VList (map VStr (split_whitespace s)))
      else if String.eqb m "to_string" || String.eqb m "as_ref" || String.eqb m "into" then Got self
      else if String.eqb m "as_bytes" then Got (VBytes (utf8 s))
      else if String.eqb m "parse::u32" then
        Got (match parse_u32 s with Some n => ok (VInt U32 n) | None => err (VCon "ParseIntError" "" []) end)
      else Fails Stuck
  | VStr s, [VChar c] =>
      if String.eqb m "push" then Update VUnit (VStr (s ++ [c]))
      else if String.eqb m "strip_suffix" then Got (str_option (strip_suffix c s))
      else if String.eqb m "split" then Got (VList (map VStr (split_on (fun x => x =? c) s)))
      else Fails Stuck
  | VStr s, [VStr t] =>
      if String.eqb m "push_str" then Update VUnit (VStr (s ++ t))
      else if String.eqb m "write_str" then Update (ok VUnit) (VStr (s ++ t))
      else if String.eqb m "strip_prefix" then Got (str_option (strip_prefix t s))
      else Fails Stuck
  | VBytes l, [] =>
      if String.eqb m "len" then Got (usize (length l))
      else if String.eqb m "iter" then Got (VList (map (fun b => VInt U8 (b2n b)) l))
      else Fails Stuck
  | VList l, [] =>
      if String.eqb m "count" || String.eqb m "len" then Got (usize (length l))
      else if String.eqb m "iter" || String.eqb m "into_iter" || String.eqb m "copied" || String.eqb m "collect"
      then Got self
      else Fails Stuck
  | VList l, [v] =>
      if String.eqb m "push" then Update VUnit (VList (l ++ [v]))
      else if String.eqb m "extend" then match v with VList k => Update VUnit (VList (l ++ k)) | _ => Fails Stuck end
      else Fails Stuck
  | VInt t n, [] =>
      if String.eqb m "to_string" then Got (VStr (dec n))
      else if String.eqb m "to_be_bytes" then match t with U32 => Got (VBytes (u32_to_be n)) | _ => Fails Stuck end
      else Fails Stuck
  | VInt t a, [VInt _ b] => if String.eqb m "saturating_sub" then Got (VInt t (a - b)) else Fails Stuck
  | VLang L, [VInt _ i] =>
      if String.eqb m "word_of" then match any_word_of L i with Some w => Got (VStr w) | None => Fails Panicked end
      else Fails Stuck
  | VLang L, [VStr w] =>
      if String.eqb m "index_of" then
        Got (match any_index_of L w with Some i => some (VInt Usize i) | None => none end)
      else Fails Stuck
  | _, _ => Fails Stuck
  end.

(** ** Patterns *)
Fixpoint match_pat (p : pat) (v : value) {struct p} : option env :=
  match p with
  | QWild => Some []
  | QBind x => Some [(x, v)]
  | QInt n => match v with VInt _ m => if n =? m then Some [] else None | _ => None end
  | QRef q => match_pat q v
  | QPath l =>
      match v with VCon _ c [] => if String.eqb c (last l "") then Some [] else None | _ => None end
  | QCon l ps =>
      match v with
      | VCon _ c vs =>
          if String.eqb c (last l "") then
            (fix go (ps : list pat) (vs : list value) : option env :=
               match ps, vs with
               | [], [] => Some []
               | p :: ps', v :: vs' =>
                   match match_pat p v, go ps' vs' with Some a, Some b => Some (push_all b a) | _, _ => None end
               | _, _ => None
               end) ps vs
          else None
      | _ => None
      end
  | QTup ps =>
      match v with
      | VTup vs =>
          (fix go (ps : list pat) (vs : list value) : option env :=
             match ps, vs with
             | [], [] => Some []
             | p :: ps', v :: vs' =>
                 match match_pat p v, go ps' vs' with Some a, Some b => Some (push_all b a) | _, _ => None end
             | _, _ => None
             end) ps vs
      | _ => None
      end
  | QOr ps =>
      (fix go (ps : list pat) : option env :=
         match ps with
         | [] => None
         | p :: ps' => match match_pat p v with Some a => Some a | None => go ps' end
         end) ps
  end.

(** ** Functions *)
Variable prog : list item.
(** rounds of a loop *)
Variable rounds : nat.
Fixpoint find_fn (t f : string) (l : list item) : option fundef :=
  match l with
  | [] => None
  | IFn o _ g d :: l' => if String.eqb o t && String.eqb g f then Some d else find_fn t f l'
  | _ :: l' => find_fn t f l'
  end.
Fixpoint find_const (t c : string) (l : list item) : option (ty * expr) :=
  match l with
  | [] => None
  | IConst o d a e :: l' => if String.eqb o t && String.eqb d c then Some (a, e) else find_const t c l'
  | _ :: l' => find_const t c l'
  end.
Fixpoint find_struct (s : string) (l : list item) : option (list (string * ty)) :=
  match l with
  | [] => None
  | IStruct t fs :: l' => if String.eqb s t then Some fs else find_struct s l'
  | _ :: l' => find_struct s l'
  end.
Fixpoint field_type (f : string) (fs : list (string * ty)) : option ty :=
  match fs with
  | [] => None
  | (g, t) :: fs' => if String.eqb g f then Some t else field_type f fs'
  end.
(** a parameter is a name, possibly behind [&] *)
Fixpoint param_name (p : pat) : string :=
  match p with QBind x => x | QRef q => param_name q | _ => "_" end.
Fixpoint bind_params (ps : list (pat * option ty)) (vs : list value) (acc : env) : option env :=
  match ps, vs with
  | [], [] => Some acc
  | (p, t) :: ps', v :: vs' => bind_params ps' vs' ((param_name p, coerce_opt t v) :: acc)
  | _, _ => None
  end.
Definition finals (k base : nat) (r : env) : list value := top_values k (keep (k + base) r) [].
Fixpoint write_backs (args finals : list value) (r : env) : option env :=
  match args, finals with
  | VRef k way :: args', w :: finals' =>
      match write_place k way w r with Some r' => write_backs args' finals' r' | None => None end
  | _ :: args', _ :: finals' => write_backs args' finals' r
  | _, _ => Some r
  end.
Fixpoint derefs (vs : list value) (r : env) : option (list value) :=
  match vs with
  | [] => Some []
  | v :: vs' => match deref v r, derefs vs' r with Some a, Some l => Some (a :: l) | _, _ => None end
  end.

Definition items_of (v : value) : option (list value) :=
  match v with VBytes l => Some (map (fun b => VInt U8 (b2n b)) l) | VList l => Some l | _ => None end.
Definition length_of (v : value) : option nat :=
  match v with VBytes l => Some (length l) | VList l => Some (length l) | _ => None end.

Section Eval.
(** evaluation of the bodies of functions and closures, with less room for calls *)
Variable enter : string -> expr -> env -> out value.

(** run a body on arguments; the result, and what the parameters hold in the end *)
Definition run_body (owner : string) (ps : list (pat * option ty)) (ret : option ty) (b : expr) (seen : env)
    (self : option value) (vs : list value) : (value * list value) + fault :=
  match bind_params ps vs (match self with Some v => ("self", v) :: seen | None => seen end) with
  | None => inr Stuck
  | Some r0 =>
      match enter owner b r0 with
      | Val v r | Jump (Returned v) r => inl (coerce_opt ret v, finals (size r0 - size seen) (size seen) r)
      | Jump _ _ => inr Stuck
      | Fault f => inr f
      end
  end.
Definition call_with (x : (value * list value) + fault) (refs : list value) (r : env) : out value :=
  match x with
  | inl (v, ws) => match write_backs refs ws r with Some r' => Val v r' | None => Fault Stuck end
  | inr f => Fault f
  end.
Definition call_fn (owner : string) (d : fundef) (args : list value) (r : env) : out value :=
  match derefs args r with
  | Some vs => call_with (run_body owner (f_params d) (Some (f_ret d)) (f_body d) [] None vs) args r
  | None => Fault Stuck
  end.
Definition call_method (owner : string) (d : fundef) (self : value) (args : list value) (r : env) : out value :=
  match deref self r, derefs args r with
  | Some s, Some vs =>
      call_with (run_body owner (f_params d) (Some (f_ret d)) (f_body d) [] (Some s) vs)
        ((match f_self d with ByMut => self | _ => VUnit end) :: args) r
  | _, _ => Fault Stuck
  end.
Definition call_closure (f : value) (args : list value) (r : env) : out value :=
  match f, derefs args r with
  | VClo owner ps b seen, Some vs => call_with (run_body owner ps None b seen None vs) args r
  | _, _ => Fault Stuck
  end.

Fixpoint coerce_fields (tys : list (string * ty)) (fs : list (string * value)) : list (string * value) :=
  match fs with
  | [] => []
  | (f, v) :: fs' => (f, coerce_opt (field_type f tys) v) :: coerce_fields tys fs'
  end.
Definition make_struct (t : string) (fs : list (string * value)) : value :=
  let tys := match find_struct t prog with Some l => l | None => [] end in
  VRec t (coerce_fields tys fs).
Definition resolve (owner : string) (p : list string) : list string :=
  match p with
  | "Self" :: p' => owner :: p'
  | _ => p
  end.
(** [#[derive(Default)]] *)
Definition default_of (t : ty) : value :=
  match t with
  | TyName [s] => if String.eqb s "Vec" then VList [] else VUnit
  | _ => VUnit
  end.
Fixpoint default_fields (fs : list (string * ty)) : list (string * value) :=
  match fs with [] => [] | (f, t) :: fs' => (f, default_of t) :: default_fields fs' end.
(** a path that is not a local variable *)
Definition global (owner : string) (p : list string) (r : env) : out value :=
  match resolve owner p with
  | [x] =>
      if String.eqb x "true" then Val (VBool true) r else if String.eqb x "false" then Val (VBool false) r
      else if String.eqb x "None" then Val none r
      else match find_const "" x prog with
           | Some (t, e) =>
               match enter "" e [] with Val v _ => Val (coerce t v) r | Jump _ _ => Fault Stuck | Fault f => Fault f end
           | None => Val (VFn [x]) r
           end
  | [t; x] =>
      match find_const t x prog with
      | Some (u, e) =>
          match enter t e [] with Val v _ => Val (coerce u v) r | Jump _ _ => Fault Stuck | Fault f => Fault f end
      | None =>
          match find_fn t x prog with
          | Some _ => Val (VFn [t; x]) r
          | None => Val (VCon t x []) r
          end
      end
  | _ => Fault Stuck
  end.
(** a call of a path that is not a local variable *)
Definition call_path (owner : string) (p : list string) (args : list value) (r : env) : out value :=
  match resolve owner p with
  | [x] =>
      match args with
      | [v] =>
          if String.eqb x "Some" then Val (some v) r else if String.eqb x "Ok" then Val (ok v) r
          else if String.eqb x "Err" then Val (err v) r
          else match find_struct x prog with
               | Some _ => Val (make_struct x [("0", v)]) r
               | None =>
                   match find_fn "" x prog with Some d => call_fn "" d args r | None => Fault Stuck end
               end
      | _ => match find_fn "" x prog with Some d => call_fn "" d args r | None => Fault Stuck end
      end
  | [t; f] =>
      match find_fn t f prog with
      | Some d => call_fn t d args r
      | None =>
          match derefs args r with
          | Some vs =>
              match builtin_fn t f vs with
              | Some q => from_prim q r
              | None =>
                  if upper_name f then Val (VCon t f vs) r
                  else if String.eqb f "default" then
                    match find_struct t prog with Some fs => Val (VRec t (default_fields fs)) r | None => Fault Stuck end
                  else Fault Stuck
              end
          | None => Fault Stuck
          end
      end
  | _ => Fault Stuck
  end.
Definition call_builtin (m : string) (self : value) (args : list value) (r : env) : out value :=
  match deref self r, derefs args r with
  | Some s, Some vs =>
      if String.eqb m "as_mut" then
        match s, self with
        | VCon _ _ [], _ => Val s r
        | VCon t c [_], VRef k way => Val (VCon t c [VRef k (snoc way SPayload)]) r
        | _, _ => Fault Stuck
        end
      else
      match builtin_method m s vs with
      | Got v => Val v r
      | Update v s' =>
          match self with
          | VRef k way => match write_place k way s' r with Some r' => Val v r' | None => Fault Stuck end
          | _ => Val v r
          end
      | Fails f => Fault f
      end
  | _, _ => Fault Stuck
  end.
Definition assign (place w : value) (r : env) : out value :=
  match place with
  | VRef k way =>
      match read_place k way r with
      | Some old => match write_place k way (coerce_like old w) r with Some r' => Val VUnit r' | None => Fault Stuck end
      | None => Fault Stuck
      end
  | _ => Fault Stuck
  end.
Definition truth (v : value) (r : env) : option bool :=
  match deref v r with Some (VBool b) => Some b | _ => None end.
Definition binop_in (op : punct) (v w : value) (r : env) : out value :=
  match deref v r, deref w r with Some a, Some b => from_prim (binop op a b) r | _, _ => Fault Stuck end.
(** the part of a place or value *)
Definition part (s : step) (v : value) (r : env) : out value :=
  match v with
  | VRef k way =>
      match read_place k (snoc way s) r with
      | Some (VRef k' way') => Val (VRef k' way') r
      | Some _ => Val (VRef k (snoc way s)) r
      | None => Fault Stuck
      end
  | _ => from_opt (take_step v s) r
  end.
Definition index_part (v i : value) (r : env) : out value :=
  match deref v r, deref i r with
  | Some c, Some (VInt _ n) =>
      match length_of c with
      | Some len => if n <? N.of_nat len then part (SIndex (N.to_nat n)) v r else Fault Panicked
      | None => Fault Stuck
      end
  | _, _ => Fault Stuck
  end.
Definition load (v : value) (r : env) : out value := from_opt (deref v r) r.
Definition leave {A : Type} (k : nat) (m : out A) : out A :=
  match m with Val v r => Val v (keep k r) | Jump j r => Jump j (keep k r) | Fault f => Fault f end.

(** [body]: one round with its test; [false] ends the loop *)
Fixpoint loop (n : nat) (body : env -> out bool) (r : env) : out value :=
  match n with
  | O => Fault OutOfFuel
  | S n' =>
      match body r with
      | Val true r' => loop n' body r'
      | Val false r' => Val VUnit r'
      | Jump Broke r' => Val VUnit r'
      | Jump Continued r' => loop n' body r'
      | Jump j r' => Jump j r'
      | Fault f => Fault f
      end
  end.
(** one round for each item *)
Fixpoint each (items : list value) (body : value -> env -> out value) (r : env) : out value :=
  match items with
  | [] => Val VUnit r
  | v :: items' =>
      match body v r with
      | Val _ r' => each items' body r'
      | Jump Broke r' => Val VUnit r'
      | Jump Continued r' => each items' body r'
      | Jump j r' => Jump j r'
      | Fault f => Fault f
      end
  end.

Section Parts.
Variable ev : expr -> env -> out value.
Fixpoint evals (l : list expr) (r : env) : out (list value) :=
  match l with
  | [] => Val [] r
  | a :: l' => do v, r <- ev a r; do vs, r <- evals l' r; Val (v :: vs) r
  end.
Fixpoint fields (fs : list (string * expr)) (r : env) : out (list (string * value)) :=
  match fs with
  | [] => Val [] r
  | (f, a) :: fs' => do v, r <- ev a r; do vs, r <- fields fs' r; Val ((f, v) :: vs) r
  end.
Fixpoint arms (v : value) (l : list (pat * expr)) (r : env) : out value :=
  match l with
  | [] => Fault Stuck
  | (p, b) :: l' =>
      match match_pat p v with
      | Some bs => leave (size r) (ev b (push_all bs r))
      | None => arms v l' r
      end
  end.
Definition while_round (c b : expr) (r : env) : out bool :=
  do v, r <- ev c r;
  match truth v r with
  | Some true => do _, r <- ev b r; Val true r
  | Some false => Val false r
  | None => Fault Stuck
  end.
Definition loop_round (b : expr) (r : env) : out bool := do _, r <- ev b r; Val true r.
Definition for_round (p : pat) (b : expr) (v : value) (r : env) : out value :=
  match match_pat p v with
  | Some bs => leave (size r) (ev b (push_all bs r))
  | None => Fault Stuck
  end.
End Parts.
Section Block.
Variable ev evt : expr -> env -> out value.
Variable t : option expr.
Fixpoint stmts (l : list expr) (r : env) : out value :=
  match l with
  | [] => match t with Some a => evt a r | None => Val VUnit r end
  | a :: l' => do _, r <- ev a r; stmts l' r
  end.
End Block.
Definition check (v : value) (r : env) : out value :=
  match truth v r with Some true => Val VUnit r | Some false => Fault Panicked | None => Fault Stuck end.
Definition unop_in (op : punct) (v : value) (r : env) : out value :=
  match deref v r with Some w => from_prim (unop op w) r | None => Fault Stuck end.
Definition cast_in (t : ty) (v : value) (r : env) : out value :=
  match deref v r with Some w => from_prim (cast t w) r | None => Fault Stuck end.
Definition variable (place : bool) (owner : string) (p : list string) (r : env) : out value :=
  match p with
  | [x] =>
      match find_var x r with
      | Some (k, v) =>
          if place then match v with VRef k' way => Val (VRef k' way) r | _ => Val (VRef k []) r end
          else Val v r
      | None => global owner p r
      end
  | _ => global owner p r
  end.
Definition call_any (owner : string) (p : list string) (vs : list value) (r : env) : out value :=
  match p with
  | [x] =>
      match find_var x r with
      | Some (_, g) => call_closure g vs r
      | None => call_path owner p vs r
      end
  | _ => call_path owner p vs r
  end.
(** ** Functions as arguments *)
Definition is_callable (v : value) : bool := match v with VClo _ _ _ _ => true | VFn _ => true | _ => false end.
Definition takes_fn (vs : list value) : bool := match vs with [v] => is_callable v | _ => false end.
Definition call_value (f v : value) (r : env) : out value :=
  match f with VFn p => call_path "" p [v] r | _ => call_closure f [v] r end.
Fixpoint map_list (f : value) (l : list value) (r : env) : out (list value) :=
  match l with
  | [] => Val [] r
  | v :: l' => do w, r <- call_value f v r; do ws, r <- map_list f l' r; Val (w :: ws) r
  end.
Fixpoint filter_list (f : value) (l : list value) (r : env) : out (list value) :=
  match l with
  | [] => Val [] r
  | v :: l' =>
      do c, r <- call_value f v r;
      match truth c r with
      | Some b => do ws, r <- filter_list f l' r; Val (if b then v :: ws else ws) r
      | None => Fault Stuck
      end
  end.
Fixpoint find_list (f : value) (l : list value) (r : env) : out value :=
  match l with
  | [] => Val none r
  | v :: l' =>
      do c, r <- call_value f v r;
      match truth c r with
      | Some true => Val (some v) r
      | Some false => find_list f l' r
      | None => Fault Stuck
      end
  end.
Definition call_higher (m : string) (v f : value) (r : env) : out value :=
  match v with
  | VCon t c l =>
      let applies := if String.eqb m "map" then String.eqb c "Ok" || String.eqb c "Some"
                     else if String.eqb m "map_err" then String.eqb c "Err" else false in
      if applies then
        match l with [w] => do w, r <- call_value f w r; Val (VCon t c [w]) r | _ => Fault Stuck end
      else if String.eqb m "map" || String.eqb m "map_err" then Val v r else Fault Stuck
  | VList l =>
      if String.eqb m "map" then do ws, r <- map_list f l r; Val (VList ws) r
      else if String.eqb m "filter" then do ws, r <- filter_list f l r; Val (VList ws) r
      else if String.eqb m "find" then find_list f l r
      else Fault Stuck
  | _ => Fault Stuck
  end.
(** the type whose [from_str] a method is *)
Definition parsed (m : string) : string :=
  if String.eqb m "parse" then "ChildNumber"
  else if String.prefix "parse::" m then substring 7 (String.length m) m else "".
Definition method_name (m : string) (targ : list ty) : string :=
  match targ with [] => m | t :: _ => m ++ "::" ++ ty_name t end.
Definition call_any_method (m : string) (s : value) (vs : list value) (r : env) : out value :=
  match deref s r with
  | Some v =>
      match find_fn (type_of v) m prog with
      | Some d => call_method (type_of v) d s vs r
      | None =>
          match find_fn (parsed m) "from_str" prog with
          | Some d => call_fn (parsed m) d [v] r
          | None =>
              if takes_fn vs then match vs with [f] => call_higher m v f r | _ => Fault Stuck end
              else call_builtin m s vs r
          end
      end
  | None => Fault Stuck
  end.

(** ** Texts *)
Inductive piece : Type := Text (s : str) | Next | Named (x : string).
Definition codes (s : string) : str := map N_of_ascii (list_ascii_of_string s).
(** a format string; [None]: a part is not understood *)
Fixpoint pieces (fuel : nat) (s : string) : option (list piece) :=
  match fuel, s with
  | _, EmptyString => Some []
  | S n, String "{" r =>
      let (x, r') := span is_name r in
      match r' with
      | String "}" r'' =>
          match pieces n r'' with Some l => Some ((if String.eqb x "" then Next else Named x) :: l) | None => None end
      | _ => None
      end
  | S n, String "}" r => None
  | S n, _ =>
      let (x, r') := span (fun c => negb (Ascii.eqb c "{" || Ascii.eqb c "}")) s in
      match pieces n r' with Some l => Some (Text (codes x) :: l) | None => None end
  | O, _ => None
  end.
(** [Display] *)
Definition shown (v : value) (r : env) : out str :=
  match deref v r with
  | Some (VStr s) => Val s r
  | Some (VInt _ n) => Val (dec n) r
  | Some w =>
      match find_fn (type_of w) "fmt" prog with
      | Some d =>
          match run_body (type_of w) (f_params d) (Some (f_ret d)) (f_body d) [] (Some w) [VStr []] with
          | inl (VCon _ c _, [_; VStr s]) => if String.eqb c "Ok" then Val s r else Fault Stuck
          | inl _ => Fault Stuck
          | inr f => Fault f
          end
      | None => Fault Stuck
      end
  | None => Fault Stuck
  end.
Fixpoint render (owner : string) (ps : list piece) (vs : list value) (r : env) : out str :=
  match ps with
  | [] => Val [] r
  | Text s :: ps' => do t, r <- render owner ps' vs r; Val (s ++ t)%list r
  | Next :: ps' =>
      match vs with
      | v :: vs' => do s, r <- shown v r; do t, r <- render owner ps' vs' r; Val (s ++ t)%list r
      | [] => Fault Stuck
      end
  | Named x :: ps' =>
      do v, r <- variable false owner [x] r; do s, r <- shown v r;
      do t, r <- render owner ps' vs r; Val (s ++ t)%list r
  end.
(** [write!]: add to the text at a place *)
Definition append (place : value) (t : str) (r : env) : out value :=
  match place with
  | VRef k way =>
      match read_place k way r with
      | Some (VStr s) =>
          match write_place k way (VStr (s ++ t)) r with Some r' => Val (ok VUnit) r' | None => Fault Stuck end
      | _ => Fault Stuck
      end
  | _ => Fault Stuck
  end.
Definition format_in (owner : string) (place : value) (s : string) (vs : list value) (r : env) : out value :=
  match pieces (S (String.length s)) s with
  | Some ps => do t, r <- render owner ps vs r; append place t r
  | None => Fault Stuck
  end.
Definition repeated (v k : value) (r : env) : out value :=
  match v, deref k r with
  | VInt U8 x, Some (VInt _ k) => Val (VBytes (repeat (n2b x) (N.to_nat k))) r
  | _, Some (VInt _ k) => Val (VList (repeat v (N.to_nat k))) r
  | _, _ => Fault Stuck
  end.
Definition try_value (v : value) (r : env) : out value :=
  match v with
  | VCon t c l =>
      if String.eqb c "Ok" || String.eqb c "Some" then match l with [w] => Val w r | _ => Fault Stuck end
      else Jump (Returned v) r
  | _ => Fault Stuck
  end.
Definition let_in (p : pat) (v : value) (r : env) : out value :=
  match match_pat p v with Some bs => Val VUnit (push_all bs r) | None => Fault Stuck end.
Definition items_in (v : value) (r : env) : out (list value) :=
  match deref v r with
  | Some c => match items_of c with Some items => Val items r | None => Fault Stuck end
  | None => Fault Stuck
  end.

(** [place]: stop at the place of a variable, field or element *)
Definition eval_step (eval : bool -> string -> expr -> env -> out value)
    (place : bool) (owner : string) (e : expr) (r : env) : out value :=
  let ev := fun e r => eval false owner e r in
  let evt := fun e r => eval place owner e r in
  let found := fun w r => if place then Val w r else load w r in
  match e with
  | EInt n s => Val (VInt (suffix_type s) n) r
  | EStr s => Val (VStr (codes s)) r
  | EChar c => Val (VChar c) r
  | EByte c => Val (VInt U8 c) r
  | EPath p => variable place owner p r
  | EUn op a =>
      match op with
      | PStar => do v, r <- eval true owner a r; found v r
      | _ => do v, r <- ev a r; unop_in op v r
      end
  | EAddr m a => do v, r <- eval true owner a r; if m then Val v r else load v r
  | EBin op a b =>
      do v, r <- ev a r;
      match op with
      | PAndAnd =>
          match truth v r with Some true => ev b r | Some false => Val (VBool false) r | None => Fault Stuck end
      | POrOr =>
          match truth v r with Some true => Val (VBool true) r | Some false => ev b r | None => Fault Stuck end
      | _ => do w, r <- ev b r; binop_in op v w r
      end
  | EAssign a b => do w, r <- ev b r; do p, r <- eval true owner a r; assign p w r
  | EOpAssign op a b =>
      do w, r <- ev b r; do p, r <- eval true owner a r; do w, r <- binop_in op p w r; assign p w r
  | ECast a t => do v, r <- ev a r; cast_in t v r
  | EField a f => do v, r <- eval true owner a r; do w, r <- part (SField f) v r; found w r
  | EIndex a i =>
      do v, r <- eval true owner a r; do n, r <- ev i r; do w, r <- index_part v n r; found w r
  | ERange _ _ => Fault Stuck
  | ECall f args =>
      match f with
      | EPath p => do vs, r <- evals ev args r; call_any owner p vs r
      | _ => Fault Stuck
      end
  | EMethod a m t args =>
      do s, r <- eval true owner a r; do vs, r <- evals ev args r; call_any_method (method_name m t) s vs r
  | EMacro m args =>
      if String.eqb m "debug_assert" then
        match args with
        | c :: _ => if b_debug B then do v, r <- ev c r; check v r else Val VUnit r
        | [] => Fault Stuck
        end
      else if String.eqb m "debug_assert_eq" then
        match args with
        | a :: b :: _ =>
            if b_debug B then
              do v, r <- ev a r; do w, r <- ev b r; do c, r <- binop_in PEqEq v w r; check c r
            else Val VUnit r
        | _ => Fault Stuck
        end
      else if String.eqb m "write" then
        match args with
        | a :: EStr s :: l => do p, r <- eval true owner a r; do vs, r <- evals ev l r; format_in owner p s vs r
        | _ => Fault Stuck
        end
      else Fault Stuck
  | EMatches a p =>
      do v, r <- ev a r; Val (VBool (match match_pat p v with Some _ => true | None => false end)) r
  | ERepeat a n => do v, r <- ev a r; do k, r <- ev n r; repeated v k r
  | EList l => do vs, r <- evals ev l r; Val (VList vs) r
  | EIf c a b =>
      do v, r <- ev c r;
      match truth v r with Some true => evt a r | Some false => evt b r | None => Fault Stuck end
  | EIfLet p c a b =>
      do v, r <- ev c r;
      match match_pat p v with
      | Some bs => leave (size r) (evt a (push_all bs r))
      | None => evt b r
      end
  | EMatch a l => do v, r <- ev a r; arms evt v l r
  | EWhile c b => loop rounds (while_round ev c b) r
  | EFor p a b => do v, r <- ev a r; do items, r <- items_in v r; each items (for_round ev p b) r
  | ELoop b => loop rounds (loop_round ev b) r
  | EBlock l t => leave (size r) (stmts ev evt t l r)
  | EReturn a =>
      match a with
      | Some a => do v, r <- ev a r; Jump (Returned v) r
      | None => Jump (Returned VUnit) r
      end
  | EBreak => Jump Broke r
  | EContinue => Jump Continued r
  | ETry a => do v, r <- ev a r; try_value v r
  | EClosure ps b => Val (VClo owner ps b r) r
  | ETuple l => match l with [] => Val VUnit r | _ => do vs, r <- evals ev l r; Val (VTup vs) r end
  | EStruct p fs => do vs, r <- fields ev fs r; Val (make_struct (last (resolve owner p) "") vs) r
  | ELet p t a => do v, r <- ev a r; let_in p (coerce_opt t v) r
  | EFn f ps _ b => Val VUnit ((f, VClo owner ps b []) :: r)
  end.
Fixpoint eval (place : bool) (owner : string) (e : expr) (r : env) {struct e} : out value :=
  eval_step eval place owner e r.
End Eval.

(** [depth]: how deep calls may nest *)
Fixpoint enter (depth : nat) (owner : string) (b : expr) (r : env) : out value :=
  match depth with
  | O => Fault OutOfFuel
  | S d => eval (enter d) false owner b r
  end.

(** a function called with values *)
Definition run (depth : nat) (t f : string) (args : list value) : (value * list value) + fault :=
  match find_fn t f prog with
  | Some d =>
      match f_self d, args with
      | NoSelf, _ => run_body (enter depth) t (f_params d) (Some (f_ret d)) (f_body d) [] None args
      | _, s :: args' => run_body (enter depth) t (f_params d) (Some (f_ret d)) (f_body d) [] (Some s) args'
      | _, [] => inr Stuck
      end
  | None => inr Stuck
  end.
End Build.
