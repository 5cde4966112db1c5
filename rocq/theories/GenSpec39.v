(** Specification of the generated sources: the Rust syntax they use, the faults of a
    word-list file, and Cargo's feature selection. *)
From Verif Require Import Base Str Language39 BuildScript39 LangSpec39 Builtin39 Generate39 PathSpec32.

(** ** String literals (Rust reference, tokens; without line continuations and without
    underscores in Unicode escapes) *)
Definition hex_val (c : N) : option N :=
  if (48 <=? c) && (c <=? 57) then Some (c - 48)
  else if (97 <=? c) && (c <=? 102) then Some (c - 87)
  else if (65 <=? c) && (c <=? 70) then Some (c - 55)
  else None.
Inductive hex_digits : str -> N -> Prop :=
| hd_nil : hex_digits [] 0
| hd_snoc ds v c d : hex_digits ds v -> hex_val c = Some d -> hex_digits (ds ++ [c]) (16 * v + d).
(** One element of a literal with the character it stands for. *)
Inductive str_elem : str -> N -> Prop :=
| el_plain c : c <> 34 -> c <> 92 -> c <> 13 -> str_elem [c] c
| el_quote : str_elem [92; 34] 34
| el_single : str_elem [92; 39] 39
| el_newline : str_elem [92; 110] 10
| el_return : str_elem [92; 114] 13
| el_tab : str_elem [92; 116] 9
| el_backslash : str_elem [92; 92] 92
| el_null : str_elem [92; 48] 0
| el_ascii h l a b : hex_val h = Some a -> hex_val l = Some b -> a < 8 -> str_elem [92; 120; h; l] (16 * a + b)
| el_unicode ds v : hex_digits ds v -> (1 <= length ds <= 6)%nat -> is_scalar v = true ->
    str_elem ([92; 117; 123] ++ ds ++ [125]) v.
Inductive str_body : str -> str -> Prop :=
| sb_nil : str_body [] []
| sb_cons s c r v : str_elem s c -> str_body r v -> str_body (s ++ r) (c :: v).
Inductive str_literal : str -> str -> Prop :=
| sl_body b v : str_body b v -> str_literal ([34] ++ b ++ [34]) v.

(** ** The generated file *)
Inductive array_items : str -> list str -> Prop :=
| ai_nil : array_items [] []
| ai_cons L w r ws : str_literal L w -> array_items r ws ->
    array_items (lit "    " ++ L ++ lit "," ++ [10] ++ r) (w :: ws).
Inductive map_items : str -> list (str * N) -> Prop :=
| mi_nil : map_items [] []
| mi_cons L w ds r es : str_literal L w -> ds <> [] -> Forall is_digit ds -> digits_value ds < 2 ^ 16 ->
    map_items r es ->
    map_items (lit "    " ++ L ++ lit " => " ++ ds ++ lit "u16," ++ [10] ++ r) ((w, digits_value ds) :: es).
(** Two comment lines, an empty line, the array of 2048 words, the map (without duplicate
    keys, or [phf_map!] refuses it) and the static that refers to both. *)
Inductive compiles : str -> Wordlist -> Prop :=
| compiles_file c1 c2 t1 t2 ws es :
    ~ In 10 c1 -> ~ In 10 c2 -> array_items t1 ws -> map_items t2 es ->
    N.of_nat (length ws) = 2048 -> NoDup (map fst es) ->
    compiles (lit "//" ++ c1 ++ [10] ++ lit "//" ++ c2 ++ [10] ++ [10] ++
              lit "pub static WORDS: [&str; 2048] = [" ++ [10] ++ t1 ++ lit "];" ++ [10] ++ [10] ++
              lit "pub static INDEX: ::phf::Map<&'static str, u16> = ::phf::phf_map! {" ++ [10] ++ t2 ++
              lit "};" ++ [10] ++ [10] ++
              lit "pub static WORDLIST: crate::language::Wordlist = crate::language::Wordlist {" ++ [10] ++
              [9] ++ lit "words: &WORDS," ++ [10] ++ [9] ++ lit "index: &INDEX," ++ [10] ++ lit "};" ++ [10])
             {| wl_words := ws; wl_index := es |}.

(** ** What is wrong with a word-list file *)
(** A good line. *)
Definition good_line (p : list byte * bool) (w : str) : Prop := line_word p w /\ clean_word w.
(** The first fault of the lines [ps], in the order the script looks for faults. *)
Inductive first_fault (ps : list (list byte * bool)) : build_err -> Prop :=
| ff_utf8 before ws p after : ps = before ++ p :: after -> Forall2 good_line before ws ->
    (forall w, ~ line_word p w) -> first_fault ps (NotUtf8 (1 + N.of_nat (length before)))
| ff_space before ws p w after : ps = before ++ p :: after -> Forall2 good_line before ws ->
    line_word p w -> w <> [] ->
    (exists c t, w = c :: t /\ is_ws c = true) \/ (exists t c, w = t ++ [c] /\ is_ws c = true) ->
    first_fault ps (InvalidWhitespace (1 + N.of_nat (length before)))
| ff_empty before ws p after : ps = before ++ p :: after -> Forall2 good_line before ws ->
    line_word p [] -> first_fault ps (EmptyLine (1 + N.of_nat (length before)))
| ff_duplicate before w after : Forall2 good_line ps (before ++ w :: after) -> NoDup before -> In w before ->
    first_fault ps (DuplicateWord w (1 + N.of_nat (length before)))
| ff_count ws : Forall2 good_line ps ws -> NoDup ws -> N.of_nat (length ws) <> 2048 ->
    first_fault ps (WrongLineCount (N.of_nat (length ws))).

(** ** Cargo *)
(** The features that are on when [req] are requested. *)
Inductive enabled (req : list str) : str -> Prop :=
| en_req f : In f req -> In f (map fst feature_table) -> enabled req f
| en_implied f g gs : enabled req f -> In (f, gs) feature_table -> In g gs -> enabled req g.
(** [cfg(feature = ..)], or no [cfg]. *)
Definition cfg_on (req : list str) (f : option str) : Prop :=
  match f with Some f => enabled req f | None => True end.
(** The variables Cargo sets for the build script. *)
Definition cargo_env (req : list str) (env : str -> bool) : Prop :=
  forall v, env v = true <-> exists f, enabled req f /\ env_name f = v.
(** The source included by the module of a language. *)
Definition included (b : BuiltInLanguage) : str := snd (fst (module_of b)).
