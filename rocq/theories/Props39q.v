(** Property theorems for the comparison operators of bip0039 (C74). *)
From Verif Require Import Base Str Unicode UnicodeProofs UnicodeTables Language39 Mnemonic39 Spec39 Builtin39 LangSpec39
  LangProofs MnemonicProofs Compare39 Props39.

(** C74: counts are ordered by their number of words, the default has the fewest; only equal
    languages compare as equal. *)
Theorem C74_counts c d :
  count_cmp c d = (word_count c ?= word_count d) /\ word_count count_default <= word_count d /\
  forall a b, builtin_cmp a b = Eq <-> a = b.
Proof.
  split; [destruct c, d; reflexivity|]. split; [destruct d; discriminate|].
  intros a b. unfold builtin_cmp. rewrite N.compare_eq_iff. split; [|intros ->; reflexivity].
  destruct a, b; (reflexivity || discriminate).
Qed.
Print Assumptions C74_counts.

Lemma mnemonic_eqb_eq m n : mnemonic_eqb m n = true <-> m = n.
Proof.
  unfold mnemonic_eqb. rewrite andb_true_iff, str_eqb_eq, bytes_eqb_eq. destruct m, n. cbn. split.
  - intros [-> ->]. reflexivity.
  - intros [= -> ->]. auto.
Qed.
(** C74: mnemonics of one language are equal exactly when their phrases are, and exactly when
    their entropies are. *)
Theorem C74_mnemonics U B b m n :
  ucd_std U -> valid_build B -> made U B (language_of b) m -> made U B (language_of b) n ->
  (mnemonic_eqb m n = true <-> phrase m = phrase n) /\ (mnemonic_eqb m n = true <-> entropy m = entropy n).
Proof.
  intros HU HB M N. pose proof (builtin_contract U b HU) as LC.
  destruct (made_inv U B _ m (std_ok U HU) LC HB M) as [_ [_ [_ [_ [_ [EM PM]]]]]].
  destruct (made_inv U B _ n (std_ok U HU) LC HB N) as [_ [_ [_ [_ [_ [EN PN]]]]]].
  rewrite mnemonic_eqb_eq. split; split; intros H; try (rewrite H; reflexivity).
  - rewrite H in PM. rewrite PM in PN. congruence.
  - rewrite H in EM. rewrite EM in EN. congruence.
Qed.
Print Assumptions C74_mnemonics.

(** C74: handles that compare equal look up words and indices alike. *)
Theorem C74_handles I h h' L L' : handle_of I h L -> handle_of I h' L' -> handle_eqb h h' = true ->
  (forall i, lang_word_of L i = lang_word_of L' i) /\ (forall w, lang_index_of L w = lang_index_of L' w).
Proof.
  intros [W X] [W' X'] E. apply andb_true_iff in E as [A A']. apply N.eqb_eq in A, A'. split.
  - intros i. rewrite <- W, <- W', A. reflexivity.
  - intros w. rewrite <- X, <- X', A'. reflexivity.
Qed.
Print Assumptions C74_handles.

Lemma builtin_words_differ b c : b <> c -> exists i, lang_word_of (language_of b) i <> lang_word_of (language_of c) i.
Proof.
  intros NE.
  assert (K : match lang_word_of (language_of b) 9, lang_word_of (language_of c) 9 with
    | Some v, Some w => negb (str_eqb v w) | _, _ => false end = true \/
    match lang_word_of (language_of b) 0, lang_word_of (language_of c) 0 with
    | Some v, Some w => negb (str_eqb v w) | _, _ => false end = true).
  { destruct b, c; try contradiction; ((right; vm_compute; reflexivity) || (left; vm_compute; reflexivity)). }
  destruct K as [K|K]; [exists 9|exists 0]; intros E; rewrite E in K;
    destruct (lang_word_of (language_of c) _); try discriminate; rewrite (proj2 (str_eqb_eq _ _) eq_refl) in K; discriminate.
Qed.
(** C74: handles of different built-in languages never compare equal. *)
Theorem C74_builtin_handles I h h' b c :
  handle_of I h (language_of b) -> handle_of I h' (language_of c) -> handle_eqb h h' = true -> b = c.
Proof.
  intros H H' E. destruct (C74_handles _ _ _ _ _ H H' E) as [W _].
  destruct (N.eq_dec (builtin_rank b) (builtin_rank c)) as [R|R].
  - apply (proj2 (proj2 (C74_counts Words12 Words12))). apply N.compare_eq_iff. exact R.
  - exfalso. assert (NE : b <> c) by congruence. destruct (builtin_words_differ b c NE) as [i D]. exact (D (W i)).
Qed.
Print Assumptions C74_builtin_handles.

(** C74: equal run-time mnemonics are the same mnemonic of the same language. *)
Theorem C74_any I h h' b c m n U pass :
  handle_of I h (language_of b) -> handle_of I h' (language_of c) -> any_mnemonic_eqb (h, m) (h', n) = true ->
  b = c /\ phrase m = phrase n /\ entropy m = entropy n /\ to_seed U m pass = to_seed U n pass.
Proof.
  intros H H' E. apply andb_true_iff in E as [E1 E2]. cbn [fst snd] in *.
  apply mnemonic_eqb_eq in E2 as ->. split; [exact (C74_builtin_handles I h h' b c H H' E1)|auto].
Qed.
Print Assumptions C74_any.

(** An image with the two functions of every built-in language at two addresses each. *)
Definition ex_lang (a : N) : Language :=
  match a mod 10 with
  | 0 => language_of BEnglish | 1 => language_of BChineseSimplified | 2 => language_of BChineseTraditional | 3 => language_of BCzech | 4 => language_of BFrench
  | 5 => language_of BItalian | 6 => language_of BJapanese | 7 => language_of BKorean | 8 => language_of BPortuguese | _ => language_of BSpanish
  end.
Definition ex_image : image := {|
  word_code := fun a => lang_word_of (ex_lang a);
  index_code := fun a => lang_index_of (ex_lang a)
|}.
Example C74_case :
  handle_of ex_image {| word_addr := 4; index_addr := 14 |} (language_of BFrench) /\
  handle_of ex_image {| word_addr := 14; index_addr := 14 |} (language_of BFrench) /\
  handle_eqb {| word_addr := 4; index_addr := 14 |} {| word_addr := 4; index_addr := 14 |} = true.
Proof. repeat split; reflexivity. Qed.
(** Two handles of one language need not compare equal: nothing makes the address of a
    function unique. *)
Theorem C74_handles_refuted : ~ forall I h h' L, handle_of I h L -> handle_of I h' L -> handle_eqb h h' = true.
Proof.
  intros H. destruct C74_case as (A & B & _). specialize (H _ _ _ _ A B). discriminate H.
Qed.
Print Assumptions C74_handles_refuted.
