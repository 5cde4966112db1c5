(** Specifications for word lists: the [Language] contract as documented in
    bip0039/src/language/mod.rs:25-30, and well-formed word-list files. *)
From Verif Require Import Base Str Unicode Language39.

(** The documented requirements, plus: words are non-empty and contain no
    whitespace (without which no phrase could be split back into words). *)
Record lang_contract (U : ucd) (L : Language) : Prop := {
  lc_count : N.of_nat (length (lang_words L)) = 2048;
  lc_unique : NoDup (lang_words L);
  lc_words : Forall (fun w => w <> [] /\ Forall (fun c => is_ws c = false) w /\ nfkd U w = w)
               (lang_words L);
  lc_word_of : forall i, i < 2048 -> lang_word_of L i = nth_error (lang_words L) (N.to_nat i);
  lc_index_of : forall w i,
    lang_index_of L w = Some i <-> nth_error (lang_words L) (N.to_nat i) = Some w
}.

(** ** Word-list files *)

(** The lines of a file: pieces ended by LF, and a last unterminated non-empty
    piece if there is one ([false]). *)
Inductive file_lines : list byte -> list (list byte * bool) -> Prop :=
| fl_end : file_lines [] []
| fl_last l : l <> [] -> ~ In x0a l -> file_lines l [(l, false)]
| fl_line l rest ps : ~ In x0a l -> file_lines rest ps -> file_lines (l ++ x0a :: rest) ((l, true) :: ps).

(** Dropping one CR at the end, if there is one. *)
Definition drops_cr {A : Type} (cr : A) (l l' : list A) : Prop :=
  l = l' ++ [cr] \/ (l = l' /\ forall p, l <> p ++ [cr]).

(** The word on a line: the UTF-8 text of the line without CRs.  Terminated lines
    may end in CR LF; after that one more CR is dropped. *)
Definition line_word (p : list byte * bool) (w : str) : Prop :=
  exists b s, (if snd p then drops_cr x0d (fst p) b else b = fst p) /\
    b = utf8 s /\ Forall (fun c => is_scalar c = true) s /\ drops_cr 13 s w.

(** Acceptable words. *)
Definition clean_word (w : str) : Prop :=
  (exists c t, w = c :: t /\ is_ws c = false) /\ (exists t c, w = t ++ [c] /\ is_ws c = false).

(** A well-formed file with its words in order. *)
Definition wordlist_file (file : list byte) (ws : list str) : Prop :=
  exists ps, file_lines file ps /\ Forall2 line_word ps ws /\ Forall clean_word ws /\
    NoDup ws /\ N.of_nat (length ws) = 2048.
