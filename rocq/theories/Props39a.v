(** C102: phrases that two built-in languages accept. *)
From Coq Require Import FMapPositive.
From Verif Require Import Base Sha2 Str StrProofs Unicode UnicodeTables UnicodeProofs Language39
  BuildScript39 Builtin39 Mnemonic39 Spec39 BitsProofs LangSpec39 LangProofs MnemonicProofs Eqb39 Props39.

(** ** The words two lists share
    Every word is looked up by a number computed from its characters in the lists of the other
    languages.  Equal words have equal numbers, so that only false alarms are possible. *)
Definition word_key (w : str) : positive :=
  fold_left (fun p c => match c with N0 => 65536 * p | N.pos q => 65536 * p + q end%positive) w 1%positive.
Fixpoint numbered (k : N) (l : list str) : list (positive * N) :=
  match l with [] => [] | w :: l => (word_key w, k) :: numbered (k + 1) l end.
Definition table (l : list (positive * N)) : PositiveMap.t N :=
  fold_left (fun M '(k, i) => PositiveMap.add k i M) l (PositiveMap.empty N).
Definition hits (none : bool) (rel : N -> N -> bool) (M : PositiveMap.t N) (l : list (positive * N)) : bool :=
  forallb (fun '(k, j) => match PositiveMap.find k M with Some i => rel i j | None => none end) l.

Definition all_languages : list BuiltInLanguage :=
  [BEnglish; BChineseSimplified; BChineseTraditional; BCzech; BFrench; BItalian; BJapanese; BKorean; BPortuguese; BSpanish].
Definition english_french (b b' : BuiltInLanguage) : Prop :=
  (b = BEnglish /\ b' = BFrench) \/ (b = BFrench /\ b' = BEnglish).
Definition both_chinese (b b' : BuiltInLanguage) : Prop :=
  (b = BChineseSimplified /\ b' = BChineseTraditional) \/ (b = BChineseTraditional /\ b' = BChineseSimplified).
Definition sharing (b b' : BuiltInLanguage) (i j : N) : bool :=
  match b, b' with
  | BEnglish, BFrench | BFrench, BEnglish => negb (i =? j)
  | BChineseSimplified, BChineseTraditional | BChineseTraditional, BChineseSimplified => i =? j
  | BEnglish, BEnglish | BChineseSimplified, BChineseSimplified | BChineseTraditional, BChineseTraditional
  | BCzech, BCzech | BFrench, BFrench | BItalian, BItalian | BJapanese, BJapanese | BKorean, BKorean
  | BPortuguese, BPortuguese | BSpanish, BSpanish => true
  | _, _ => false
  end.
Definition tables_ok (words : BuiltInLanguage -> list str) : bool :=
  let data := map (fun b => let l := numbered 0 (words b) in (b, table l, l)) all_languages in
  forallb (fun '(b, M, l) => hits false N.eqb M l &&
    forallb (fun '(b', _, l') => hits true (sharing b b') M l') data) data.
Lemma tables_checked : tables_ok (fun b => wl_words (wordlist_of b)) = true.
Proof. vm_cast_no_check (eq_refl true). Qed.

Lemma numbered_in l : forall k i w, nth_error l i = Some w -> In (word_key w, k + N.of_nat i) (numbered k l).
Proof.
  induction l as [|v l IH]; intros k [|i] w H; cbn in H; try discriminate; cbn [numbered].
  - injection H as ->. left. f_equal. lia.
  - right. replace (k + N.of_nat (S i)) with (k + 1 + N.of_nat i) by lia. apply IH. exact H.
Qed.
Lemma in_all b : In b all_languages.
Proof. destruct b; cbn; tauto. Qed.
Lemma tables_sound words b b' w i j : tables_ok words = true ->
  nth_error (words b) i = Some w -> nth_error (words b') j = Some w -> sharing b b' (N.of_nat i) (N.of_nat j) = true.
Proof.
  intros T Hi Hj.
  apply (numbered_in _ 0) in Hi, Hj. rewrite N.add_0_l in Hi, Hj.
  unfold tables_ok in T. cbv zeta in T. rewrite forallb_forall in T.
  specialize (T _ (in_map _ _ _ (in_all b))). cbv beta iota in T. apply andb_true_iff in T as [T1 T2].
  rewrite forallb_forall in T2. specialize (T2 _ (in_map _ _ _ (in_all b'))). cbv beta iota in T2.
  unfold hits in T1, T2. rewrite forallb_forall in T1, T2. specialize (T1 _ Hi). specialize (T2 _ Hj). cbv beta iota in T1, T2.
  destruct (PositiveMap.find _ _) as [i'|]; [|discriminate]. apply N.eqb_eq in T1. subst i'. exact T2.
Qed.
Lemma shared_indices b b' w i j :
  nth_error (lang_words (language_of b)) i = Some w -> nth_error (lang_words (language_of b')) j = Some w ->
  sharing b b' (N.of_nat i) (N.of_nat j) = true.
Proof.
  rewrite !language_of_wordlist. cbn [wordlist_language lang_words]. exact (tables_sound _ b b' w i j tables_checked).
Qed.

(** C102: only English and French, and the two Chinese lists, share words; French and English give
    every shared word different indices, the Chinese lists equal ones. *)
Theorem C102_shared_words b b' w i j :
  b <> b' ->
  nth_error (lang_words (language_of b)) i = Some w -> nth_error (lang_words (language_of b')) j = Some w ->
  (english_french b b' /\ i <> j) \/ (both_chinese b b' /\ i = j).
Proof.
  intros N Hi Hj. pose proof (shared_indices b b' w i j Hi Hj) as T. unfold english_french, both_chinese.
  destruct b, b'; cbn [sharing] in T; try discriminate T; try (elim (N eq_refl)).
  1, 4: left; split; [tauto|]; intros ->; rewrite N.eqb_refl in T; discriminate.
  all: right; split; [tauto|]; apply N.eqb_eq in T; lia.
Qed.
Print Assumptions C102_shared_words.

(** C102: whatever the languages, an accepted text has one phrase and one seed. *)
Theorem C102_same_seed U b b' s m m' :
  ucd_std U -> from_phrase U (language_of b) s = Ok m -> from_phrase U (language_of b') s = Ok m' ->
  phrase m = phrase m' /\ forall p, to_seed U m p = to_seed U m' p.
Proof.
  intros HU H H'. assert (E : phrase m = phrase m').
  { rewrite from_phrase_nfkd in H, H' by apply HU.
    destruct (accepted U _ (builtin_contract U b HU) b64 _ m b64_valid H) as (idxs & ws & W & _ & _ & _ & _ & P & _).
    destruct (accepted U _ (builtin_contract U b' HU) b64 _ m' b64_valid H') as (idxs' & ws' & W' & _ & _ & _ & _ & P' & _).
    unfold phrase. rewrite P, P', (words_of_fun _ _ _ W W'). reflexivity. }
  split; [exact E|]. intros p. unfold to_seed. unfold phrase in E. rewrite E. reflexivity.
Qed.
Print Assumptions C102_same_seed.

(** C102: a text that two different built-in languages accept is written in English and French, and
    stands for two different entropies, or in both Chinese scripts, and stands for one. *)
Theorem C102_two_languages U b b' s m m' :
  ucd_std U -> b <> b' ->
  from_phrase U (language_of b) s = Ok m -> from_phrase U (language_of b') s = Ok m' ->
  (english_french b b' /\ entropy m <> entropy m') \/ (both_chinese b b' /\ m = m').
Proof.
  intros HU N H H'. rewrite from_phrase_nfkd in H, H' by apply HU.
  pose proof (builtin_contract U b HU) as LC. pose proof (builtin_contract U b' HU) as LC'.
  destruct (accepted U _ LC b64 _ m b64_valid H) as (idxs & ws & W & HL & BI & F & _ & P & LE & _).
  destruct (accepted U _ LC' b64 _ m' b64_valid H') as (idxs' & ws' & W' & _ & BI' & F' & _ & P' & LE' & _).
  assert (ws' = ws) by exact (words_of_fun _ _ _ W' W). subst ws'.
  assert (IX : Forall2 (fun i j => (english_french b b' /\ i <> j) \/ (both_chinese b b' /\ i = j)) idxs idxs').
  { clear - F F' LC LC' N BI BI'. destruct BI as [B _], BI' as [B' _]. revert idxs' B B' F'.
    induction F as [|i w idxs ws Hi F IH]; intros idxs' B B' F'; inversion F' as [|j ? idxs2 ? Hj F2]; subst; constructor.
    - inversion B; inversion B'; subst. rewrite (lc_word_of U _ LC) in Hi by assumption. rewrite (lc_word_of U _ LC') in Hj by assumption.
      destruct (C102_shared_words b b' w _ _ N Hi Hj) as [[A D]|[A D]]; [left|right]; (split; [exact A|]); lia.
    - inversion B; inversion B'; subst. apply IH; assumption. }
  assert (NE : idxs <> []).
  { intros ->. inversion F; subst. cbn in HL. intuition discriminate. }
  destruct IX as [|i j idxs idxs' Hij IX]; [elim (NE eq_refl)|]. destruct Hij as [[A D]|[A D]].
  - left. split; [exact A|]. intros E. destruct BI as [B1 B2], BI' as [B1' B2']. unfold entropy in E. rewrite E in B2.
    rewrite <- B2' in B2. apply index_bits_inj in B2; [|assumption..]. congruence.
  - right. split; [exact A|].
    assert (EQ : idxs = idxs').
    { clear -IX A. induction IX as [|i j l l' Hij IX IH]; [reflexivity|]. f_equal; [|apply IH; exact IX].
      destruct Hij as [[X _]|[_ X]]; [|exact X]. exfalso. unfold english_french, both_chinese in *.
      destruct b, b'; intuition discriminate. }
    subst. destruct BI as [_ B2], BI' as [_ B2']. rewrite B2' in B2.
    assert (LN : length (m_entropy m) = length (m_entropy m')).
    { pose proof (f_equal (@length bool) B2) as Q. pose proof (bip39_bits_length _ LE). pose proof (bip39_bits_length _ LE'). lia. }
    unfold bip39_bits in B2. symmetry in B2. apply app_inv_length in B2 as [B2 _]; [|rewrite !bytes_bits_length, LN; reflexivity].
    apply bytes_bits_inj in B2. destruct m as [p e], m' as [p' e']. cbn [m_phrase m_entropy] in *. congruence.
Qed.
Print Assumptions C102_two_languages.

(** C102: such texts exist. *)
Definition both_phrase : str := lit "humble amateur question digital sentence danger stable image loyal fruit orange science".
Definition han_phrase : str :=
  join [32] (map (fun c => [c]) [0x5175; 0x80e1; 0x65fa; 0x91cf; 0x7b56; 0x6162; 0x671b; 0x79cb; 0x79d8; 0x78c1; 0x671f; 0x5f1f]).
Theorem C102_one_entropy_refuted :
  exists s m m', from_phrase ucd15 (language_of BEnglish) s = Ok m /\ from_phrase ucd15 (language_of BFrench) s = Ok m' /\
    entropy m = unhex "6ee0f6be1efc3e6ef4f38a848bba6f60" /\ entropy m' = unhex "7cc16316232da87cb88bf391adc2b5eb".
Proof.
  exists both_phrase, {| m_phrase := both_phrase; m_entropy := unhex "6ee0f6be1efc3e6ef4f38a848bba6f60" |},
    {| m_phrase := both_phrase; m_entropy := unhex "7cc16316232da87cb88bf391adc2b5eb" |}.
  split; [run_m|]. split; [run_m|]. split; reflexivity.
Qed.
Print Assumptions C102_one_entropy_refuted.
Example C102_case : ucd_std ucd15 /\ BChineseSimplified <> BChineseTraditional /\
  from_phrase ucd15 (language_of BChineseSimplified) han_phrase =
    Ok {| m_phrase := han_phrase; m_entropy := unhex "492f037785850cdc505387a2adcc7547" |} /\
  from_phrase ucd15 (language_of BChineseTraditional) han_phrase =
    Ok {| m_phrase := han_phrase; m_entropy := unhex "492f037785850cdc505387a2adcc7547" |}.
Proof. split; [exact ucd15_std|]. split; [discriminate|]. split; run_m. Qed.
