(** Model of bip0039/build.rs: reading a word-list file and generating the
    [WORDS] table and the [INDEX] map. *)
From Verif Require Import Base Str Language39.

(** The ways the script fails for one file (anyhow errors, lines are 1-based).
    Failing to open or read the file, and to write the output, are not modelled. *)
Inductive build_err : Type :=
| NotUtf8 (line : N)
| InvalidWhitespace (line : N)
| EmptyLine (line : N)
| DuplicateWord (w : str) (line : N)
| WrongLineCount (n : N).

(** [BufRead::lines] (std): cut after each LF; the flag tells whether the piece
    was terminated by LF.  No line is produced after a final LF. *)
Fixpoint raw_lines (cur : list byte) (l : list byte) : list (list byte * bool) :=
  match l with
  | [] => match cur with [] => [] | _ => [(rev cur, false)] end
  | b :: l' => if byte_eqb b x0a then (rev cur, true) :: raw_lines [] l' else raw_lines (b :: cur) l'
  end.

(** Remove one trailing CR. *)
Definition strip_cr {A : Type} (is_cr : A -> bool) (l : list A) : list A :=
  match rev l with
  | c :: r => if is_cr c then rev r else l
  | [] => l
  end.

(** [lines]: an LF-terminated line also loses one CR; the bytes must be UTF-8. *)
Definition line_of (p : list byte * bool) : option str :=
  let '(l, terminated) := p in
  utf8_decode (if terminated then strip_cr (fun b => byte_eqb b x0d) l else l).

(** build.rs:130-151, the loop of [read_wordlist]. *)
Fixpoint read_loop (line_no : N) (ls : list (list byte * bool)) : res build_err (list str) :=
  match ls with
  | [] => Ok []
  | p :: ls' =>
      match line_of p with
      | None => Err (NotUtf8 line_no)
      | Some s0 =>
          (* build.rs:135-137 *)
          let s := strip_cr (fun c => c =? 13) s0 in
          (* build.rs:140-143 *)
          if negb (str_eqb (trim s) s) then Err (InvalidWhitespace line_no)
          (* build.rs:146-148 *)
          else if is_empty s then Err (EmptyLine line_no)
          else let? rest := read_loop (line_no + 1) ls' in Ok (s :: rest)
      end
  end.

(** build.rs:154-159, uniqueness via a [HashSet]. *)
Fixpoint check_unique (i : N) (seen ws : list str) : res build_err unit :=
  match ws with
  | [] => Ok tt
  | w :: ws' =>
      if existsb (str_eqb w) seen then Err (DuplicateWord w (i + 1))
      else check_unique (i + 1) (w :: seen) ws'
  end.

(** build.rs:124-162 [read_wordlist] *)
Definition read_wordlist (file : list byte) : res build_err (list str) :=
  let? words := read_loop 1 (raw_lines [] file) in
  let? _ := check_unique 0 [] words in
  Ok words.

(** build.rs:106-108, the INDEX entries. *)
Fixpoint index_entries (i : N) (ws : list str) : list (str * N) :=
  match ws with
  | [] => []
  | w :: ws' => (w, i) :: index_entries (i + 1) ws'
  end.

(** build.rs:69-122 [generate_one]: the word list that the generated source denotes.  The
    text itself is in [Generate39]; C71 shows that it denotes this list. *)
Definition generate_one (file : list byte) : res build_err Wordlist :=
  let? words := read_wordlist file in
  if N.of_nat (length words) =? 2048
  then Ok {| wl_words := words; wl_index := index_entries 0 words |}
  else Err (WrongLineCount (N.of_nat (length words))).

(** File contents are written as literals of this type. *)
Inductive file_lit : Type := FileLit (l : list byte).
Definition file_lit_of (l : list byte) : file_lit := FileLit l.
Definition file_lit_to (f : file_lit) : list byte := let 'FileLit l := f in l.
Declare Scope file_scope.
Delimit Scope file_scope with file.
String Notation file_lit file_lit_of file_lit_to : file_scope.

(** The generated word list of a built-in language. *)
Definition wordlist_of_file (f : list byte) : Wordlist :=
  match generate_one f with
  | Ok wl => wl
  | _ => {| wl_words := []; wl_index := [] |}
  end.

(** The script's result can be checked by a boolean. *)
Definition entry_eqb (a b : str * N) : bool := str_eqb (fst a) (fst b) && (snd a =? snd b).
Definition generates_b (f : list byte) (wl : Wordlist) : bool :=
  match generate_one f with
  | Ok g => list_eqb str_eqb (wl_words g) (wl_words wl) && list_eqb entry_eqb (wl_index g) (wl_index wl)
  | _ => false
  end.
Lemma entry_eqb_eq a b : entry_eqb a b = true <-> a = b.
Proof.
  unfold entry_eqb. rewrite andb_true_iff, str_eqb_eq, N.eqb_eq. destruct a, b. cbn. split.
  - intros [-> ->]. reflexivity.
  - intros [= -> ->]. auto.
Qed.
Lemma generates f wl : generates_b f wl = true -> generate_one f = Ok wl.
Proof.
  unfold generates_b. destruct (generate_one f) as [g|e|]; try discriminate. intros H.
  apply andb_true_iff in H as [H1 H2]. apply (list_eqb_eq str_eqb str_eqb_eq) in H1.
  apply (list_eqb_eq entry_eqb entry_eqb_eq) in H2. destruct g, wl. cbn in *. congruence.
Qed.
