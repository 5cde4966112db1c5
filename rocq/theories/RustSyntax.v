(** A reader of the part of Rust in which the functions of [RustSource] are written: characters to tokens,
    tokens to functions, constants and types.  Generic parameters, bounds, lifetimes, attributes and [mod]
    blocks are passed over.  What cannot be read is [None]. *)
From Coq Require Export String Ascii.
From Coq Require Import NArith List Bool.
Import ListNotations.
Local Open Scope string_scope.
Local Open Scope N_scope.

(** ** Tokens *)
Inductive punct : Type :=
| PLP | PLB | PLC | PRP | PRB | PRC | PComma | PSemi | PColon | PPath | PArrow | PFat | PSet_ | PEqEq | PNe | PLt | PGt | PLe | PGe | PAndAnd | POrOr | PShl | PShr | PPlus | PMinus | PStar | PSlash | PPercent | PAnd | POr | PCaret | PBang | PQuest | PDot | PDotDot | PDotDotEq | PHash | PPlusSet | PMinusSet | PStarSet | PSlashSet | PPercentSet | PAndSet | POrSet | PCaretSet | PShlSet | PShrSet.
Inductive keyword : Type :=
| KAs | KMut | KLet | KConst | KFn | KPub | KUse | KType | KMod | KTrait | KEnum | KStruct | KImpl | KFor | KIn | KIf | KElse | KMatch | KWhile | KLoop | KReturn | KBreak | KContinue | KSelf | KUnder | KMatches | KVec.
Definition puncts : list (string * punct) :=
  [("(", PLP); ("[", PLB); ("{", PLC); (")", PRP); ("]", PRB); ("}", PRC); (",", PComma); (";", PSemi); (":", PColon); ("::", PPath); ("->", PArrow); ("=>", PFat); ("=", PSet_); ("==", PEqEq); ("!=", PNe); ("<", PLt); (">", PGt); ("<=", PLe); (">=", PGe); ("&&", PAndAnd); ("||", POrOr); ("<<", PShl); (">>", PShr); ("+", PPlus); ("-", PMinus); ("*", PStar); ("/", PSlash); ("%", PPercent); ("&", PAnd); ("|", POr); ("^", PCaret); ("!", PBang); ("?", PQuest); (".", PDot); ("..", PDotDot); ("..=", PDotDotEq); ("#", PHash); ("+=", PPlusSet); ("-=", PMinusSet); ("*=", PStarSet); ("/=", PSlashSet); ("%=", PPercentSet); ("&=", PAndSet); ("|=", POrSet); ("^=", PCaretSet); ("<<=", PShlSet); (">>=", PShrSet)].
Definition keywords : list (string * keyword) :=
  [("as", KAs); ("mut", KMut); ("let", KLet); ("const", KConst); ("fn", KFn); ("pub", KPub); ("use", KUse); ("type", KType); ("mod", KMod); ("trait", KTrait); ("enum", KEnum); ("struct", KStruct); ("impl", KImpl); ("for", KFor); ("in", KIn); ("if", KIf); ("else", KElse); ("match", KMatch); ("while", KWhile); ("loop", KLoop); ("return", KReturn); ("break", KBreak); ("continue", KContinue); ("self", KSelf); ("_", KUnder); ("matches", KMatches); ("vec", KVec)].
Definition punct_code (x : punct) : nat :=
  match x with
  | PLP => 0 | PLB => 1 | PLC => 2 | PRP => 3 | PRB => 4 | PRC => 5 | PComma => 6 | PSemi => 7 | PColon => 8 | PPath => 9 | PArrow => 10 | PFat => 11 | PSet_ => 12 | PEqEq => 13 | PNe => 14 | PLt => 15 | PGt => 16 | PLe => 17 | PGe => 18 | PAndAnd => 19 | POrOr => 20 | PShl => 21 | PShr => 22 | PPlus => 23 | PMinus => 24 | PStar => 25 | PSlash => 26 | PPercent => 27 | PAnd => 28 | POr => 29 | PCaret => 30 | PBang => 31 | PQuest => 32 | PDot => 33 | PDotDot => 34 | PDotDotEq => 35 | PHash => 36 | PPlusSet => 37 | PMinusSet => 38 | PStarSet => 39 | PSlashSet => 40 | PPercentSet => 41 | PAndSet => 42 | POrSet => 43 | PCaretSet => 44 | PShlSet => 45 | PShrSet => 46
  end%nat.
Definition punct_beq (x y : punct) : bool := Nat.eqb (punct_code x) (punct_code y).
Definition keyword_code (x : keyword) : nat :=
  match x with
  | KAs => 0 | KMut => 1 | KLet => 2 | KConst => 3 | KFn => 4 | KPub => 5 | KUse => 6 | KType => 7 | KMod => 8 | KTrait => 9 | KEnum => 10 | KStruct => 11 | KImpl => 12 | KFor => 13 | KIn => 14 | KIf => 15 | KElse => 16 | KMatch => 17 | KWhile => 18 | KLoop => 19 | KReturn => 20 | KBreak => 21 | KContinue => 22 | KSelf => 23 | KUnder => 24 | KMatches => 25 | KVec => 26
  end%nat.
Definition keyword_beq (x y : keyword) : bool := Nat.eqb (keyword_code x) (keyword_code y).
Fixpoint named {A : Type} (s : string) (l : list (string * A)) : option A :=
  match l with
  | [] => None
  | (x, a) :: l' => if String.eqb x s then Some a else named s l'
  end.
Inductive token : Type :=
| TId (s : string) | TInt (n : N) (suffix : string) | TStr (s : string) | TChar (c : N) | TByte (c : N)
| TLife (s : string) | TP (p : punct) | TK (k : keyword).

Definition between (a b c : ascii) : bool :=
  (N_of_ascii a <=? N_of_ascii c) && (N_of_ascii c <=? N_of_ascii b).
Definition is_upper (c : ascii) : bool := between "A" "Z" c.
Definition is_letter (c : ascii) : bool := between "a" "z" c || is_upper c || Ascii.eqb c "_".
Definition is_num (c : ascii) : bool := between "0" "9" c.
Definition is_name (c : ascii) : bool := is_letter c || is_num c.
Definition is_blank (c : ascii) : bool :=
  Ascii.eqb c " " || Ascii.eqb c "010" || Ascii.eqb c "013" || Ascii.eqb c "009".

Fixpoint span (p : ascii -> bool) (s : string) : string * string :=
  match s with
  | String c r => if p c then let (a, b) := span p r in (String c a, b) else ("", s)
  | "" => ("", "")
  end.
Definition digit_of (c : ascii) : N :=
  if is_num c then N_of_ascii c - 48
  else if between "a" "f" c then N_of_ascii c - 87 else N_of_ascii c - 55.
Fixpoint number (base acc : N) (s : string) : N :=
  match s with
  | String c r => if Ascii.eqb c "_" then number base acc r else number base (acc * base + digit_of c) r
  | "" => acc
  end.
Definition is_hex (c : ascii) : bool :=
  is_num c || between "a" "f" c || between "A" "F" c || Ascii.eqb c "_".
Definition is_dec (c : ascii) : bool := is_num c || Ascii.eqb c "_".
Definition lex_number (s : string) : token * string :=
  match s with
  | String "0" (String "x" r) =>
      let (d, r) := span is_hex r in let (u, r) := span is_name r in (TInt (number 16 0 d) u, r)
  | String "0" (String "b" r) =>
      let (d, r) := span is_dec r in let (u, r) := span is_name r in (TInt (number 2 0 d) u, r)
  | _ => let (d, r) := span is_dec s in let (u, r) := span is_name r in (TInt (number 10 0 d) u, r)
  end.

(** the character after a backslash *)
Definition escape (c : ascii) : option ascii :=
  if Ascii.eqb c "n" then Some "010"%char else if Ascii.eqb c "r" then Some "013"%char
  else if Ascii.eqb c "t" then Some "009"%char else if Ascii.eqb c "0" then Some "000"%char
  else if Ascii.eqb c "'" || Ascii.eqb c "\" || Ascii.eqb c """" then Some c else None.
(** the rest of a string literal *)
Fixpoint lex_string (s : string) : option (string * string) :=
  match s with
  | "" => None
  | String """" r => Some ("", r)
  | String "\" (String e r) =>
      match escape e, lex_string r with
      | Some c, Some (t, r') => Some (String c t, r')
      | _, _ => None
      end
  | String c r => match lex_string r with Some (t, r') => Some (String c t, r') | None => None end
  end.
(** after a single quote: a character or a lifetime *)
Definition lex_quote (s : string) : option (token * string) :=
  match s with
  | String "\" (String e (String "'" r)) =>
      match escape e with Some c => Some (TChar (N_of_ascii c), r) | None => None end
  | String c (String "'" r) => Some (TChar (N_of_ascii c), r)
  | _ => let (a, r) := span is_name s in match a with "" => None | _ => Some (TLife a, r) end
  end.
(** the longest operator *)
Definition lex_punct (s : string) : option (token * string) :=
  let take n := match named (substring 0 n s) puncts with
                | Some p => Some (TP p, substring n (String.length s) s)
                | None => None
                end in
  match take 3%nat with
  | Some x => Some x
  | None => match take 2%nat with Some x => Some x | None => take 1%nat end
  end.
Definition word (s : string) : token := match named s keywords with Some k => TK k | None => TId s end.
Fixpoint lex (fuel : nat) (s : string) : option (list token) :=
  match fuel with
  | O => None
  | S fuel' =>
      let next (x : option (token * string)) :=
        match x with
        | Some (t, r) => match lex fuel' r with Some l => Some (t :: l) | None => None end
        | None => None
        end in
      match s with
      | "" => Some []
      | String "/" (String "/" r) => lex fuel' (snd (span (fun c => negb (Ascii.eqb c "010")) r))
      | String "b" (String "'" r) =>
          next (match lex_quote r with Some (TChar c, r') => Some (TByte c, r') | _ => None end)
      | String c r =>
          if is_blank c then lex fuel' r
          else if is_letter c then let (a, r') := span is_name s in next (Some (word a, r'))
          else if is_num c then next (Some (lex_number s))
          else if Ascii.eqb c """" then
            next (match lex_string r with Some (t, r') => Some (TStr t, r') | None => None end)
          else if Ascii.eqb c "'" then next (lex_quote r)
          else next (lex_punct s)
      end
  end.

(** ** Syntax *)
Inductive ty : Type :=
| TyName (segments : list string) | TyRef (mutable : bool) (t : ty) | TyTuple (l : list ty) | TyArray (t : ty).
Inductive pat : Type :=
| QWild | QBind (x : string) | QInt (n : N) | QPath (p : list string) | QCon (p : list string) (l : list pat)
| QTup (l : list pat) | QRef (q : pat) | QOr (l : list pat).
Inductive expr : Type :=
| EInt (n : N) (suffix : string) | EStr (s : string) | EChar (c : N) | EByte (c : N) | EPath (p : list string)
| EUn (op : punct) (a : expr) | EAddr (mutable : bool) (a : expr) | EBin (op : punct) (a b : expr)
| EAssign (a b : expr) | EOpAssign (op : punct) (a b : expr) | ECast (a : expr) (t : ty)
| EField (a : expr) (f : string) | EIndex (a i : expr) | ERange (a b : option expr)
| ECall (f : expr) (args : list expr) | EMethod (a : expr) (m : string) (targ : list ty) (args : list expr)
| EMacro (m : string) (args : list expr) | EMatches (a : expr) (p : pat) | ERepeat (a n : expr) | EList (l : list expr)
| EIf (c a b : expr) | EIfLet (p : pat) (c a b : expr) | EMatch (a : expr) (arms : list (pat * expr))
| EWhile (c b : expr) | EFor (p : pat) (a b : expr) | ELoop (b : expr)
| EBlock (l : list expr) (tail : option expr)
| EReturn (a : option expr) | EBreak | EContinue | ETry (a : expr) | EClosure (ps : list (pat * option ty)) (b : expr)
| ETuple (l : list expr) | EStruct (p : list string) (fs : list (string * expr))
| ELet (p : pat) (t : option ty) (a : expr)
| EFn (f : string) (ps : list (pat * option ty)) (r : ty) (b : expr).

Inductive self_kind : Type := NoSelf | ByValue | ByRef | ByMut.
Record fundef : Type := mkFn {
  f_self : self_kind; f_params : list (pat * option ty); f_ret : ty; f_body : expr }.
Inductive item : Type :=
| IFn (owner trait name : string) (f : fundef)
| IConst (owner name : string) (t : ty) (e : expr)
| IStruct (name : string) (fields : list (string * ty)).

(** ** Reading types and patterns *)
Definition P (A : Type) : Type := list token -> option (A * list token).
Definition is_p (p : punct) (t : token) : bool := match t with TP x => punct_beq x p | _ => false end.
Definition is_k (k : keyword) (t : token) : bool := match t with TK x => keyword_beq x k | _ => false end.
Definition expect (p : punct) (ts : list token) : option (list token) :=
  match ts with t :: r => if is_p p t then Some r else None | [] => None end.
Definition peek (p : punct) (ts : list token) : bool :=
  match ts with t :: _ => is_p p t | [] => false end.
Definition peek_k (k : keyword) (ts : list token) : bool :=
  match ts with t :: _ => is_k k t | [] => false end.

(** to the end of [<...>], whose opening was read *)
Fixpoint skip_angle (depth : nat) (ts : list token) : option (list token) :=
  match ts with
  | [] => None
  | t :: r =>
      if is_p PLt t then skip_angle (S depth) r
      else if is_p PGt t then match depth with S (S d) => skip_angle (S d) r | _ => Some r end
      else if is_p PShr t then
        match depth with
        | S (S (S d)) => skip_angle (S d) r
        | S (S O) => Some r
        | _ => Some (TP PGt :: r)
        end
      else skip_angle depth r
  end.
Definition skip_generics (ts : list token) : option (list token) :=
  if peek PLt ts then match ts with _ :: r => skip_angle 1 r | [] => None end else Some ts.
(** to the end of a bracket, whose opening was read *)
Fixpoint skip_close (depth : nat) (ts : list token) : option (list token) :=
  match ts with
  | [] => None
  | t :: r =>
      if is_p PLP t || is_p PLB t || is_p PLC t then skip_close (S depth) r
      else if is_p PRP t || is_p PRB t || is_p PRC t then
        match depth with S (S d) => skip_close (S d) r | _ => Some r end
      else skip_close depth r
  end.
(** to the first [s] outside brackets, which is left *)
Fixpoint skip_to (fuel : nat) (s : punct) (ts : list token) : option (list token) :=
  match fuel, ts with
  | S fuel', t :: r =>
      if is_p s t then Some ts
      else if is_p PLP t || is_p PLB t || is_p PLC t then
        match skip_close 1 r with Some r' => skip_to fuel' s r' | None => None end
      else skip_to fuel' s r
  | _, _ => None
  end.

Fixpoint p_ty (fuel : nat) (ts : list token) {struct fuel} : option (ty * list token) :=
  match fuel with
  | O => None
  | S n =>
      match ts with
      | TP PAnd :: r =>
          let r := match r with TLife _ :: r' => r' | _ => r end in
          let (m, r) := if peek_k KMut r then (true, tl r) else (false, r) in
          match p_ty n r with Some (t, r) => Some (TyRef m t, r) | None => None end
      | TP PLB :: r =>
          match p_ty n r with
          | Some (t, r) => match skip_close 1 r with Some r => Some (TyArray t, r) | None => None end
          | None => None
          end
      | TP PLP :: r =>
          (fix tuple (k : nat) (acc : list ty) (r : list token) : option (ty * list token) :=
             if peek PRP r then Some (TyTuple (rev acc), tl r)
             else match k, p_ty n r with
                  | S k', Some (t, r) => if peek PComma r then tuple k' (t :: acc) (tl r) else tuple k' (t :: acc) r
                  | _, _ => None
                  end) n [] r
      | TK KImpl :: r => p_ty n r
      | TId a :: r =>
          match skip_generics r with
          | Some (TP PPath :: r) =>
              match p_ty n r with
              | Some (TyName l, r) => Some (TyName (a :: l), r)
              | _ => None
              end
          | Some r => Some (TyName [a], r)
          | None => None
          end
      | _ => None
      end
  end.

Definition upper_name (s : string) : bool := match s with String c _ => is_upper c | "" => false end.
(** [a::b::<T>::c], after the first segment *)
Fixpoint p_segments (fuel : nat) (ts : list token) : list string * list token :=
  match fuel, ts with
  | S n, TP PPath :: TId a :: r => let (l, r) := p_segments n r in (a :: l, r)
  | S n, TP PPath :: TP PLt :: r => match skip_angle 1 r with Some r => p_segments n r | None => ([], ts) end
  | _, _ => ([], ts)
  end.
Fixpoint p_pat (fuel : nat) (ts : list token) {struct fuel} : option (pat * list token) :=
  match fuel with
  | O => None
  | S n =>
      let list_of := (fix go (k : nat) (acc : list pat) (r : list token) : option (list pat * list token) :=
        if peek PRP r then Some (rev acc, tl r)
        else match k, p_pat n r with
             | S k', Some (q, r) => if peek PComma r then go k' (q :: acc) (tl r) else go k' (q :: acc) r
             | _, _ => None
             end) in
      match (match ts with
             | TP PAnd :: r => match p_pat n r with Some (q, r) => Some (QRef q, r) | None => None end
             | TP PAndAnd :: r => match p_pat n r with Some (q, r) => Some (QRef (QRef q), r) | None => None end
             | TP PLP :: r => match list_of n [] r with Some (l, r) => Some (QTup l, r) | None => None end
             | TInt k _ :: r => Some (QInt k, r)
             | TK KUnder :: r => Some (QWild, r)
             | TK KMut :: TId x :: r => Some (QBind x, r)
             | TId a :: r =>
                 let (l, r) := p_segments n r in
                 if peek PLP r then
                   match list_of n [] (tl r) with Some (ps, r) => Some (QCon (a :: l) ps, r) | None => None end
                 else match l with
                      | [] => if upper_name a then Some (QPath [a], r) else Some (QBind a, r)
                      | _ => Some (QPath (a :: l), r)
                      end
             | _ => None
             end) with
      | Some (q, r) =>
          if peek POr r then
            match p_pat n (tl r) with
            | Some (QOr l, r) => Some (QOr (q :: l), r)
            | Some (q', r) => Some (QOr [q; q'], r)
            | None => None
            end
          else Some (q, r)
      | None => None
      end
  end.
(** in the parameters of a closure [|] ends the pattern *)
Fixpoint p_pat_closure (fuel : nat) (ts : list token) : option (pat * list token) :=
  match fuel, ts with
  | S n, TP PAnd :: r => match p_pat_closure n r with Some (q, r) => Some (QRef q, r) | None => None end
  | S n, TP PAndAnd :: r => match p_pat_closure n r with Some (q, r) => Some (QRef (QRef q), r) | None => None end
  | S n, TK KUnder :: r => Some (QWild, r)
  | S n, TK KMut :: TId x :: r => Some (QBind x, r)
  | S n, TId x :: r => Some (QBind x, r)
  | _, _ => None
  end.

(** ** Reading expressions *)
Definition binary (p : punct) : option nat :=
  match p with
  | PStar | PSlash | PPercent => Some 9%nat
  | PPlus | PMinus => Some 8%nat
  | PShl | PShr => Some 7%nat
  | PAnd => Some 6%nat
  | PCaret => Some 5%nat
  | POr => Some 4%nat
  | PEqEq | PNe | PLt | PGt | PLe | PGe => Some 3%nat
  | PAndAnd => Some 2%nat
  | POrOr => Some 1%nat
  | _ => None
  end.
Definition op_assign (p : punct) : option punct :=
  match p with
  | PPlusSet => Some PPlus | PMinusSet => Some PMinus | PStarSet => Some PStar | PSlashSet => Some PSlash
  | PPercentSet => Some PPercent | PAndSet => Some PAnd | POrSet => Some POr | PCaretSet => Some PCaret
  | PShlSet => Some PShl | PShrSet => Some PShr
  | _ => None
  end.
(** expressions that end a statement without a semicolon *)
Definition block_like (e : expr) : bool :=
  match e with
  | EIf _ _ _ | EIfLet _ _ _ _ | EMatch _ _ | EWhile _ _ | EFor _ _ _ | ELoop _ | EBlock _ _ | EFn _ _ _ _ => true
  | _ => false
  end.
Definition unit_expr : expr := ETuple [].

(** The readers call each other through this record, which [readers_of] closes. *)
Record readers : Type := mkReaders {
  r_expr : bool -> list token -> option (expr * list token);
  r_bin : bool -> nat -> list token -> option (expr * list token);
  r_bin_rest : bool -> nat -> expr -> list token -> option (expr * list token);
  r_unary : bool -> list token -> option (expr * list token);
  r_postfix : bool -> expr -> list token -> option (expr * list token);
  r_args : punct -> list token -> option (list expr * list token);
  r_primary : bool -> list token -> option (expr * list token);
  r_else : list token -> option (expr * list token);
  r_arms : list token -> option (list (pat * expr) * list token);
  r_fields : list token -> option (list (string * expr) * list token);
  r_params : punct -> list token -> option (list (pat * option ty) * list token);
  r_block : list token -> option (expr * list token);
  r_stmts : list token -> option (list expr * option expr * list token);
  r_stmt_expr : list token -> option (expr * list token)
}.
(** [ns]: a [{] after a path does not begin a struct *)
Definition p_expr (R : readers) (ns : bool) (ts : list token) : option (expr * list token) :=
  if peek PDotDot ts then
    match (r_bin R) ns 1 (tl ts) with
    | Some (b, r) => Some (ERange None (Some b), r)
    | None => Some (ERange None None, tl ts)
    end
  else
  match (r_bin R) ns 1 ts with
  | None => None
  | Some (a, r) =>
      match r with
      | TP PSet_ :: r => match (r_expr R) ns r with Some (b, r) => Some (EAssign a b, r) | None => None end
      | TP PDotDot :: r =>
          match (r_bin R) ns 1 r with
          | Some (b, r) => Some (ERange (Some a) (Some b), r)
          | None => Some (ERange (Some a) None, r)
          end
      | TP o :: r' =>
          match op_assign o with
          | Some o => match (r_expr R) ns r' with Some (b, r) => Some (EOpAssign o a b, r) | None => None end
          | None => Some (a, r)
          end
      | _ => Some (a, r)
      end
  end.
(** operators of at least the given strength *)
Definition p_bin (R : readers) (ns : bool) (low : nat) (ts : list token) : option (expr * list token) :=
  match (r_unary R) ns ts with
  | None => None
  | Some (a, r) => (r_bin_rest R) ns low a r
  end.
Definition p_bin_rest (R : readers) (ns : bool) (low : nat) (a : expr) (ts : list token) : option (expr * list token) :=
  match ts with
  | TK KAs :: r =>
      match p_ty 50 r with Some (t, r) => (r_bin_rest R) ns low (ECast a t) r | None => None end
  | TP o :: r =>
      match binary o with
      | Some k =>
          if Nat.leb low k then
            match (r_bin R) ns (S k) r with
            | Some (b, r) => (r_bin_rest R) ns low (EBin o a b) r
            | None => None
            end
          else Some (a, ts)
      | None => Some (a, ts)
      end
  | _ => Some (a, ts)
  end.
Definition p_unary (R : readers) (ns : bool) (ts : list token) : option (expr * list token) :=
  match ts with
  | TP PBang :: r => match (r_unary R) ns r with Some (a, r) => Some (EUn PBang a, r) | None => None end
  | TP PStar :: r => match (r_unary R) ns r with Some (a, r) => Some (EUn PStar a, r) | None => None end
  | TP PAnd :: TK KMut :: r =>
      match (r_unary R) ns r with Some (a, r) => Some (EAddr true a, r) | None => None end
  | TP PAnd :: r => match (r_unary R) ns r with Some (a, r) => Some (EAddr false a, r) | None => None end
  | _ => match (r_primary R) ns ts with Some (a, r) => (r_postfix R) ns a r | None => None end
  end.
Definition p_postfix (R : readers) (ns : bool) (a : expr) (ts : list token) : option (expr * list token) :=
  match ts with
  | TP PQuest :: r => (r_postfix R) ns (ETry a) r
  | TP PLP :: r =>
      match (r_args R) PRP r with Some (l, r) => (r_postfix R) ns (ECall a l) r | None => None end
  | TP PLB :: r =>
      match (r_expr R) false r with
      | Some (i, r) => match expect PRB r with Some r => (r_postfix R) ns (EIndex a i) r | None => None end
      | None => None
      end
  | TP PDot :: TInt k _ :: r =>
      (r_postfix R) ns (EField a (String (ascii_of_N (48 + k)) "")) r
  | TP PDot :: TId m :: TP PLP :: r =>
      match (r_args R) PRP r with Some (l, r) => (r_postfix R) ns (EMethod a m [] l) r | None => None end
  | TP PDot :: TId m :: TP PPath :: TP PLt :: r =>
      match p_ty 50 r with
      | Some (t, r) =>
          match expect PGt r with
          | Some (TP PLP :: r) =>
              match (r_args R) PRP r with Some (l, r) => (r_postfix R) ns (EMethod a m [t] l) r | None => None end
          | _ => None
          end
      | None => None
      end
  | TP PDot :: TId f :: r => (r_postfix R) ns (EField a f) r
  | _ => Some (a, ts)
  end.
Definition p_args (R : readers) (close : punct) (ts : list token) : option (list expr * list token) :=
  if peek close ts then Some ([], tl ts)
  else match (r_expr R) false ts with
       | Some (a, r) =>
           if peek PComma r then
             match (r_args R) close (tl r) with Some (l, r) => Some (a :: l, r) | None => None end
           else match expect close r with Some r => Some ([a], r) | None => None end
       | None => None
       end.
Definition p_primary (R : readers) (ns : bool) (ts : list token) : option (expr * list token) :=
  match ts with
  | TInt k s :: r => Some (EInt k s, r)
  | TStr s :: r => Some (EStr s, r)
  | TChar c :: r => Some (EChar c, r)
  | TByte c :: r => Some (EByte c, r)
  | TP PLP :: r =>
      match (r_args R) PRP r with
      | Some ([a], r') => Some (a, r')
      | Some (l, r') => Some (ETuple l, r')
      | None => None
      end
  | TP PLB :: r =>
      match (r_expr R) false r with
      | Some (a, TP PSemi :: r) =>
          match (r_expr R) false r with
          | Some (k, r) => match expect PRB r with Some r => Some (ERepeat a k, r) | None => None end
          | None => None
          end
      | _ => match (r_args R) PRB r with Some (l, r) => Some (EList l, r) | None => None end
      end
  | TP PLC :: _ => (r_block R) ts
  | TP POrOr :: r => match (r_expr R) ns r with Some (b, r) => Some (EClosure [] b, r) | None => None end
  | TP POr :: r =>
      match (r_params R) POr r with
      | Some (ps, r) => match (r_expr R) ns r with Some (b, r) => Some (EClosure ps b, r) | None => None end
      | None => None
      end
  | TK KSelf :: r => Some (EPath ["self"], r)
  | TK KReturn :: r =>
      if peek PSemi r || peek PRC r || peek PComma r then Some (EReturn None, r)
      else match (r_expr R) ns r with Some (a, r) => Some (EReturn (Some a), r) | None => None end
  | TK KBreak :: r => Some (EBreak, r)
  | TK KContinue :: r => Some (EContinue, r)
  | TK KLoop :: r => match (r_block R) r with Some (b, r) => Some (ELoop b, r) | None => None end
  | TK KWhile :: r =>
      match (r_expr R) true r with
      | Some (c, r) => match (r_block R) r with Some (b, r) => Some (EWhile c b, r) | None => None end
      | None => None
      end
  | TK KFor :: r =>
      match p_pat 50 r with
      | Some (q, TK KIn :: r) =>
          match (r_expr R) true r with
          | Some (a, r) => match (r_block R) r with Some (b, r) => Some (EFor q a b, r) | None => None end
          | None => None
          end
      | _ => None
      end
  | TK KIf :: TK KLet :: r =>
      match p_pat 50 r with
      | Some (q, TP PSet_ :: r) =>
          match (r_expr R) true r with
          | Some (c, r) =>
              match (r_block R) r with
              | Some (a, r) =>
                  match (r_else R) r with Some (b, r) => Some (EIfLet q c a b, r) | None => None end
              | None => None
              end
          | None => None
          end
      | _ => None
      end
  | TK KIf :: r =>
      match (r_expr R) true r with
      | Some (c, r) =>
          match (r_block R) r with
          | Some (a, r) => match (r_else R) r with Some (b, r) => Some (EIf c a b, r) | None => None end
          | None => None
          end
      | None => None
      end
  | TK KMatch :: r =>
      match (r_expr R) true r with
      | Some (a, TP PLC :: r) =>
          match (r_arms R) r with Some (l, r) => Some (EMatch a l, r) | None => None end
      | _ => None
      end
  | TK KMatches :: TP PBang :: TP PLP :: r =>
      match (r_expr R) false r with
      | Some (a, TP PComma :: r) =>
          match p_pat 50 r with
          | Some (q, r) => match expect PRP r with Some r => Some (EMatches a q, r) | None => None end
          | None => None
          end
      | _ => None
      end
  | TId a :: TP PBang :: TP PLP :: r =>
      match (r_args R) PRP r with Some (l, r) => Some (EMacro a l, r) | None => None end
  | TK KVec :: TP PBang :: TP PLB :: r => (r_primary R) ns (TP PLB :: r)
  | TId a :: r =>
      let (l, r) := p_segments 50 r in
      let path := a :: l in
      if negb ns && peek PLC r && upper_name (last path "") then
        match (r_fields R) (tl r) with Some (fs, r) => Some (EStruct path fs, r) | None => None end
      else Some (EPath path, r)
  | _ => None
  end.
Definition p_else (R : readers) (ts : list token) : option (expr * list token) :=
  match ts with
  | TK KElse :: TK KIf :: r => (r_primary R) false (TK KIf :: r)
  | TK KElse :: r => (r_block R) r
  | _ => Some (unit_expr, ts)
  end.
Definition p_arms (R : readers) (ts : list token) : option (list (pat * expr) * list token) :=
  if peek PRC ts then Some ([], tl ts)
  else match p_pat 50 ts with
       | Some (q, TP PFat :: r) =>
           match (r_expr R) false r with
           | Some (a, r) =>
               let r := if peek PComma r then tl r else r in
               match (r_arms R) r with Some (l, r) => Some ((q, a) :: l, r) | None => None end
           | None => None
           end
       | _ => None
       end.
Definition p_fields (R : readers) (ts : list token) : option (list (string * expr) * list token) :=
  if peek PRC ts then Some ([], tl ts)
  else match ts with
       | TId f :: r =>
           match (match r with TP PColon :: r' => (r_expr R) false r' | _ => Some (EPath [f], r) end) with
           | Some (a, r) =>
               let r := if peek PComma r then tl r else r in
               match (r_fields R) r with Some (l, r) => Some ((f, a) :: l, r) | None => None end
           | None => None
           end
       | _ => None
       end.
Definition p_params (R : readers) (close : punct) (ts : list token) : option (list (pat * option ty) * list token) :=
  if peek close ts then Some ([], tl ts)
  else match p_pat_closure 50 ts with
       | Some (q, r) =>
           match (match r with
                  | TP PColon :: r' => match p_ty 50 r' with Some (t, r) => Some (Some t, r) | None => None end
                  | _ => Some (None, r)
                  end) with
           | Some (t, r) =>
               if peek PComma r then
                 match (r_params R) close (tl r) with Some (l, r) => Some ((q, t) :: l, r) | None => None end
               else match expect close r with Some r => Some ([(q, t)], r) | None => None end
           | None => None
           end
       | None => None
       end.
Definition p_block (R : readers) (ts : list token) : option (expr * list token) :=
  match expect PLC ts with
  | Some r =>
      match (r_stmts R) r with Some (l, t, r) => Some (EBlock l t, r) | None => None end
  | None => None
  end.
Definition p_stmts (R : readers) (ts : list token) : option (list expr * option expr * list token) :=
  let continue e r :=
    match r_stmts R r with Some (l, t, r) => Some (e :: l, t, r) | None => None end in
  let local_fn f r :=
    match r_params R PRP r with
    | Some (ps, r) =>
        match expect PArrow r with
        | Some r =>
            match p_ty 50 r with
            | Some (t, r) => match r_block R r with Some (b, r) => continue (EFn f ps t b) r | None => None end
            | None => None
            end
        | None => None
        end
    | None => None
    end in
  let local_let r :=
    match p_pat 50 r with
    | Some (q, r) =>
        match (if peek PColon r then match p_ty 50 (tl r) with Some (t, r) => Some (Some t, r) | None => None end
               else Some (None, r)) with
        | Some (t, r) =>
            match expect PSet_ r with
            | Some r =>
                match r_expr R false r with
                | Some (a, r) => match expect PSemi r with Some r => continue (ELet q t a) r | None => None end
                | None => None
                end
            | None => None
            end
        | None => None
        end
    | None => None
    end in
  let other (_ : unit) :=
    match r_stmt_expr R ts with
    | Some (a, r) =>
        if peek PSemi r then continue a (tl r)
        else if peek PRC r then Some ([], Some a, tl r)
        else if block_like a then continue a r else None
    | None => None
    end in
  match ts with
  | TP PRC :: r => Some ([], None, r)
  | TP PSemi :: r => r_stmts R r
  | TK KLet :: r => local_let r
  | TK KConst :: TK KFn :: TId f :: TP PLP :: r => local_fn f r
  | TK KFn :: TId f :: TP PLP :: r => local_fn f r
  | _ => other tt
  end.
(** a statement that begins with a block-like expression ends with it *)
Definition p_stmt_expr (R : readers) (ts : list token) : option (expr * list token) :=
  if peek_k KIf ts || peek_k KMatch ts || peek_k KWhile ts || peek_k KFor ts || peek_k KLoop ts
     || peek PLC ts
  then (r_primary R) false ts
  else (r_expr R) false ts.
Fixpoint readers_of (fuel : nat) : readers :=
  match fuel with
  | O => mkReaders (fun _ _ => None) (fun _ _ _ => None) (fun _ _ _ _ => None) (fun _ _ => None) (fun _ _ _ => None) (fun _ _ => None) (fun _ _ => None) (fun _ => None) (fun _ => None) (fun _ => None) (fun _ _ => None) (fun _ => None) (fun _ => None) (fun _ => None)
  | S n =>
      let R := readers_of n in
      mkReaders (p_expr R) (p_bin R) (p_bin_rest R) (p_unary R) (p_postfix R) (p_args R) (p_primary R) (p_else R) (p_arms R) (p_fields R) (p_params R) (p_block R) (p_stmts R) (p_stmt_expr R)
  end.

(** ** Reading items *)
Definition ty_name (t : ty) : string :=
  match t with
  | TyName l => last l "" | TyRef _ (TyName l) => last l "" | TyArray _ => "array" | _ => "tuple"
  end.
Definition p_self (ts : list token) : self_kind * list token :=
  match ts with
  | TP PAnd :: TK KMut :: TK KSelf :: r => (ByMut, if peek PComma r then tl r else r)
  | TP PAnd :: TK KSelf :: r => (ByRef, if peek PComma r then tl r else r)
  | TK KMut :: TK KSelf :: r | TK KSelf :: r => (ByValue, if peek PComma r then tl r else r)
  | _ => (NoSelf, ts)
  end.
(** after [fn name] *)
Definition p_fn (n : nat) (ts : list token) : option (fundef * list token) :=
  match skip_generics ts with
  | Some (TP PLP :: r) =>
      let (k, r) := p_self r in
      match (r_params (readers_of n)) PRP r with
      | Some (ps, r) =>
          match (match r with TP PArrow :: r' => p_ty n r' | _ => Some (TyTuple [], r) end) with
          | Some (t, r) =>
              match skip_to n PLC r with
              | Some r => match (r_block (readers_of n)) r with Some (b, r) => Some (mkFn k ps t b, r) | None => None end
              | None => None
              end
          | None => None
          end
      | None => None
      end
  | _ => None
  end.
Fixpoint p_struct_fields (fuel : nat) (ts : list token) : option (list (string * ty) * list token) :=
  match fuel with
  | O => None
  | S n =>
      match ts with
      | TP PRC :: r => Some ([], r)
      | TP PHash :: TP PLB :: r => match skip_close 1 r with Some r => p_struct_fields n r | None => None end
      | TK KPub :: TP PLP :: r => match skip_close 1 r with Some r => p_struct_fields n r | None => None end
      | TK KPub :: r => p_struct_fields n r
      | TId f :: TP PColon :: r =>
          match p_ty n r with
          | Some (t, r) =>
              let r := if peek PComma r then tl r else r in
              match p_struct_fields n r with Some (l, r) => Some ((f, t) :: l, r) | None => None end
          | None => None
          end
      | _ => None
      end
  end.
(** [skip]: the items before it is a test *)
Fixpoint p_items (fuel : nat) (owner trait : string) (ts : list token) {struct fuel}
    : option (list item * list token) :=
  match fuel with
  | O => None
  | S n =>
      let continue (i : list item) (r : list token) :=
        match p_items n owner trait r with Some (l, r) => Some ((i ++ l)%list, r) | None => None end in
      let after (s : punct) (r : list token) :=
        match skip_to n s r with Some (_ :: r) => continue [] r | _ => None end in
      let after_block (r : list token) :=
        match skip_to n PLC r with
        | Some (_ :: r) => match skip_close 1 r with Some r => continue [] r | None => None end
        | _ => None
        end in
      match ts with
      | [] => Some ([], [])
      | TP PRC :: r => Some ([], r)
      | TP PHash :: TP PLB :: r => match skip_close 1 r with Some r => continue [] r | None => None end
      | TK KPub :: TP PLP :: r => match skip_close 1 r with Some r => continue [] r | None => None end
      | TK KPub :: r => continue [] r
      | TK KUse :: r | TK KType :: r => after PSemi r
      | TK KMod :: TId _ :: TP PSemi :: r => continue [] r
      | TK KMod :: r | TK KTrait :: r | TK KEnum :: r => after_block r
      | TK KStruct :: TId s :: TP PLC :: r =>
          match p_struct_fields n r with Some (l, r) => continue [IStruct s l] r | None => None end
      | TK KStruct :: TId s :: TP PLP :: r =>
          match p_ty n r with
          | Some (t, TP PRP :: TP PSemi :: r) => continue [IStruct s [("0", t)]] r
          | _ => None
          end
      | TK KStruct :: r => after_block r
      | TK KConst :: TK KFn :: TId f :: r | TK KFn :: TId f :: r =>
          match p_fn n r with Some (d, r) => continue [IFn owner trait f d] r | None => None end
      | TK KConst :: TId c :: TP PColon :: r =>
          match p_ty n r with
          | Some (t, TP PSet_ :: r) =>
              match (r_expr (readers_of n)) false r with
              | Some (e, r) => match expect PSemi r with Some r => continue [IConst owner c t e] r | None => None end
              | None => None
              end
          | _ => None
          end
      | TK KImpl :: r =>
          match skip_generics r with
          | Some r =>
              match p_ty n r with
              | Some (t, r) =>
                  let '(tr, r) := match r with
                                  | TK KFor :: r' =>
                                      match p_ty n r' with
                                      | Some (t', r) => ((ty_name t', ty_name t), r)
                                      | None => ((ty_name t, ""), r)
                                      end
                                  | _ => ((ty_name t, ""), r)
                                  end in
                  match skip_to n PLC r with
                  | Some (_ :: r) =>
                      match p_items n (fst tr) (snd tr) r with
                      | Some (l, r) => continue l r
                      | None => None
                      end
                  | _ => None
                  end
              | None => None
              end
          | None => None
          end
      | _ => None
      end
  end.

Definition parse (text : string) : option (list item) :=
  match lex (S (String.length text)) text with
  | Some ts =>
      match p_items (20 + List.length ts) "" "" ts with
      | Some (l, []) => Some l
      | _ => None
      end
  | None => None
  end.
