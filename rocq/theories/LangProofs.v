(** The build script and the built-in languages. *)
From Verif Require Import Base Str Utf8Proofs Unicode UnicodeProofs UnicodeTables Language39
  BuildScript39 LangSpec39 Builtin39.
From Verif Require Import Words_english Words_chinese_simplified Words_chinese_traditional
  Words_czech Words_french Words_italian Words_japanese Words_korean Words_portuguese Words_spanish.

(** ** Lines *)

Lemma byte_eqb_eq a b : byte_eqb a b = true <-> a = b.
Proof.
  unfold byte_eqb. rewrite N.eqb_eq. split; [apply b2n_inj|congruence].
Qed.

Lemma raw_lines_spec l : forall cur, ~ In x0a cur -> file_lines (rev cur ++ l) (raw_lines cur l).
Proof.
  induction l as [|b l IH]; intros cur Hc; cbn [raw_lines].
  - rewrite app_nil_r. destruct cur as [|c cur]; [constructor|].
    apply fl_last.
    + intros E. apply (f_equal (@length byte)) in E. rewrite rev_length in E. discriminate.
    + intros H. apply in_rev in H. contradiction.
  - destruct (byte_eqb b x0a) eqn:E.
    + apply byte_eqb_eq in E. subst b. apply fl_line; [intros H; apply in_rev in H; contradiction|].
      apply (IH []). intros [].
    + replace (rev cur ++ b :: l) with (rev (b :: cur) ++ l) by (cbn; rewrite <- app_assoc; reflexivity).
      apply IH. intros [H|H]; [|contradiction]. subst b. rewrite (proj2 (byte_eqb_eq _ _) eq_refl) in E. discriminate.
Qed.

Lemma cut_first (a : list byte) : forall b r s, ~ In x0a a -> ~ In x0a b ->
  a ++ x0a :: r = b ++ x0a :: s -> a = b /\ r = s.
Proof.
  induction a as [|x a IH]; intros b r s Ha Hb E; destruct b as [|y b]; cbn in *.
  - injection E as <-. auto.
  - injection E as <- _. tauto.
  - injection E as -> _. tauto.
  - injection E as <- E. apply IH in E as [-> ->]; auto.
Qed.

Lemma file_lines_fun f : forall p q, file_lines f p -> file_lines f q -> p = q.
Proof.
  intros p q H. revert q. induction H as [|l Hl Hn|l rest ps Hn H IH]; intros q Hq.
  - inversion Hq as [|? Hl|? ? ? ? ? E]; subst; [reflexivity|contradiction|]. destruct l; discriminate.
  - inversion Hq as [|? Hl'|l' ? ? ? ? E]; subst; [contradiction|reflexivity|].
    exfalso. apply Hn. apply in_elt.
  - inversion Hq as [E|? Hl' Hn' E|l' rest' ps' Hn' H' E]; subst.
    + destruct l; discriminate.
    + exfalso. apply Hn'. apply in_elt.
    + apply cut_first in E as [-> ->]; [|assumption|assumption]. f_equal. apply IH. exact H'.
Qed.

Lemma file_lines_iff f ps : file_lines f ps <-> raw_lines [] f = ps.
Proof.
  split.
  - intros H. eapply file_lines_fun; [|exact H]. apply (raw_lines_spec f []). intros [].
  - intros <-. apply (raw_lines_spec f []). intros [].
Qed.

Lemma strip_cr_iff {A : Type} (f : A -> bool) cr (Hf : forall x, f x = true <-> x = cr) l l' :
  strip_cr f l = l' <-> drops_cr cr l l'.
Proof.
  unfold strip_cr, drops_cr. destruct l as [|c r] using rev_ind.
  - cbn. split; [intros <-; right; split; [reflexivity|]; intros p E; destruct p; discriminate|].
    intros [E|[E _]]; [destruct l'; discriminate|exact E].
  - rewrite rev_app_distr. cbn [rev app]. rewrite rev_involutive. destruct (f c) eqn:E.
    + apply Hf in E. subst c. split.
      * intros <-. left. reflexivity.
      * intros [H|[_ H]]; [apply app_inj_tail in H; tauto|]. exfalso. apply (H r). reflexivity.
    + split.
      * intros <-. right. split; [reflexivity|]. intros p H. apply app_inj_tail in H as [_ ->].
        rewrite (proj2 (Hf cr) eq_refl) in E. discriminate.
      * intros [H|[H _]]; [|exact H]. apply app_inj_tail in H as [_ ->].
        rewrite (proj2 (Hf cr) eq_refl) in E. discriminate.
Qed.

Lemma line_word_iff p w :
  line_word p w <-> exists s, line_of p = Some s /\ strip_cr (fun c => c =? 13) s = w.
Proof.
  unfold line_word, line_of. destruct p as [l t]. cbn [fst snd]. split.
  - intros [b [s [Hb [-> [F D]]]]]. exists s. split.
    + apply utf8_decode_iff. split; [|exact F]. destruct t; [|exact Hb].
      symmetry. apply (strip_cr_iff _ x0d); [intros; apply byte_eqb_eq|exact Hb].
    + apply (strip_cr_iff _ 13); [intros; apply N.eqb_eq|exact D].
  - intros [s [E D]]. apply utf8_decode_iff in E as [E F]. exists (utf8 s), s. repeat split.
    + destruct t; [|exact E]. apply (strip_cr_iff (fun b => byte_eqb b x0d) x0d); [intros; apply byte_eqb_eq|].
      symmetry. exact E.
    + exact F.
    + apply (strip_cr_iff (fun c => c =? 13) 13); [intros; apply N.eqb_eq|exact D].
Qed.

(** ** Trimming *)
Lemma trim_start_length s : (length (trim_start s) <= length s)%nat.
Proof. induction s as [|c s IH]; cbn; [lia|]. destruct (is_ws c); cbn; lia. Qed.

Lemma trim_start_fix s : trim_start s = s <-> s = [] \/ exists c t, s = c :: t /\ is_ws c = false.
Proof.
  split.
  - destruct s as [|c s]; [auto|]. cbn. destruct (is_ws c) eqn:E; intros H.
    + exfalso. pose proof (trim_start_length s) as L. rewrite H in L. cbn in L. lia.
    + right. eauto.
  - intros [->|[c [t [-> E]]]]; [reflexivity|]. cbn. rewrite E. reflexivity.
Qed.

Lemma trim_end_length s : (length (trim_end s) <= length s)%nat.
Proof. unfold trim_end. rewrite rev_length. etransitivity; [apply trim_start_length|]. rewrite rev_length. lia. Qed.

Lemma trim_clean s : trim s = s /\ s <> [] <-> clean_word s.
Proof.
  unfold clean_word. split.
  - intros [E Hn]. assert (E1 : trim_start s = s).
    { unfold trim in E. pose proof (trim_start_length s) as L1. pose proof (trim_end_length (trim_start s)) as L2.
      destruct s as [|c s]; [reflexivity|]. cbn [trim_start] in *. destruct (is_ws c); [|reflexivity].
      exfalso. pose proof (trim_start_length s). rewrite E in L2. cbn in L2. lia. }
    unfold trim in E. rewrite E1 in E. unfold trim_end in E.
    apply trim_start_fix in E1 as [->|H1]; [contradiction|]. split; [exact H1|].
    apply (f_equal (@rev N)) in E. rewrite rev_involutive in E.
    apply trim_start_fix in E as [E|[c [t [E Hc]]]].
    + apply (f_equal (@rev N)) in E. rewrite rev_involutive in E. contradiction.
    + exists (rev t), c. split; [|exact Hc]. apply (f_equal (@rev N)) in E. rewrite rev_involutive in E.
      exact E.
  - intros [[c [t [E Hc]]] [t' [c' [E' Hc']]]]. split; [|subst; discriminate].
    unfold trim. replace (trim_start s) with s by (symmetry; apply trim_start_fix; right; eauto).
    unfold trim_end. replace (trim_start (rev s)) with (rev s); [apply rev_involutive|].
    symmetry. apply trim_start_fix. right. exists c', (rev t'). split; [|exact Hc'].
    rewrite E'. rewrite rev_app_distr. reflexivity.
Qed.

(** ** The reading loop *)
Lemma read_loop_ok ps : forall k ws,
  read_loop k ps = Ok ws <-> Forall2 line_word ps ws /\ Forall clean_word ws.
Proof.
  induction ps as [|p ps IH]; intros k ws; cbn [read_loop].
  - split.
    + intros [= <-]. split; constructor.
    + intros [H _]. inversion H. reflexivity.
  - split.
    + destruct (line_of p) as [s0|] eqn:E0; [|discriminate]. cbv zeta.
      destruct (negb (str_eqb (trim (strip_cr (fun c => c =? 13) s0)) (strip_cr (fun c => c =? 13) s0))) eqn:E1; [discriminate|].
      destruct (is_empty (strip_cr (fun c => c =? 13) s0)) eqn:E2; [discriminate|].
      destruct (read_loop (k + 1) ps) as [rest|e|] eqn:E3; cbn [bind]; [|discriminate|discriminate].
      intros [= <-]. apply IH in E3 as [F1 F2]. split; constructor; try assumption.
      * apply line_word_iff. exists s0. auto.
      * apply trim_clean. apply negb_false_iff, str_eqb_eq in E1. split; [exact E1|].
        intros H. rewrite H in E2. discriminate.
    + intros [F1 F2]. inversion F1 as [|? w ? ws' Hw F1' E]; subst. inversion F2 as [|? ? Hc F2']; subst.
      apply line_word_iff in Hw as [s0 [-> <-]]. cbv zeta. apply trim_clean in Hc as [T N].
      rewrite (proj2 (str_eqb_eq _ _) T). cbn [negb].
      destruct (is_empty (strip_cr (fun c => c =? 13) s0)) eqn:E2.
      { destruct (strip_cr (fun c => c =? 13) s0); [contradiction|discriminate]. }
      rewrite (proj2 (IH (k + 1) ws')) by auto. reflexivity.
Qed.

Lemma read_loop_no_panic ps : forall k, read_loop k ps <> Panic.
Proof.
  induction ps as [|p ps IH]; intros k; cbn [read_loop]; [discriminate|].
  destruct (line_of p); [|discriminate]. cbv zeta. destruct (negb _); [discriminate|].
  destruct (is_empty _); [discriminate|]. specialize (IH (k + 1)).
  destruct (read_loop (k + 1) ps); cbn; congruence.
Qed.

Lemma check_unique_ok ws : forall i seen,
  check_unique i seen ws = Ok tt <-> NoDup ws /\ (forall w, In w ws -> ~ In w seen).
Proof.
  induction ws as [|w ws IH]; intros i seen; cbn [check_unique].
  - split; [split; [constructor|intros ? []]|reflexivity].
  - assert (HE : existsb (str_eqb w) seen = true <-> In w seen).
    { rewrite existsb_exists. split.
      - intros [x [Hx E]]. apply str_eqb_eq in E. subst. exact Hx.
      - intros H. exists w. split; [exact H|]. apply str_eqb_eq. reflexivity. }
    destruct (existsb (str_eqb w) seen) eqn:E.
    + split; [discriminate|]. intros [_ H]. exfalso. apply (H w); [left; reflexivity|]. apply HE. reflexivity.
    + rewrite IH. split.
      * intros [ND H]. split.
        -- constructor; [|exact ND]. intros Hw. apply (H w Hw). left. reflexivity.
        -- intros x [<-|Hx]; [intros Hs; apply HE in Hs; discriminate|]. intros Hs. apply (H x Hx). right. exact Hs.
      * intros [ND H]. inversion ND; subst. split; [assumption|].
        intros x Hx [<-|Hs]; [contradiction|]. apply (H x); [right; exact Hx|exact Hs].
Qed.

Lemma check_unique_no_panic ws : forall i seen, check_unique i seen ws <> Panic.
Proof.
  induction ws as [|w ws IH]; intros i seen; cbn [check_unique]; [discriminate|].
  destruct (existsb _ _); [discriminate|apply IH].
Qed.

Lemma read_wordlist_ok f ws : read_wordlist f = Ok ws <->
  exists ps, file_lines f ps /\ Forall2 line_word ps ws /\ Forall clean_word ws /\ NoDup ws.
Proof.
  unfold read_wordlist. split.
  - destruct (read_loop 1 (raw_lines [] f)) as [l|e|] eqn:E; cbn [bind]; [|discriminate|discriminate].
    destruct (check_unique 0 [] l) as [[]|e|] eqn:E2; cbn [bind]; [|discriminate|discriminate].
    intros [= <-]. apply read_loop_ok in E as [F1 F2]. apply check_unique_ok in E2 as [ND _].
    exists (raw_lines [] f). split; [apply file_lines_iff; reflexivity|auto].
  - intros [ps [H [F1 [F2 ND]]]]. apply file_lines_iff in H. rewrite H.
    rewrite (proj2 (read_loop_ok ps 1 ws)) by auto. cbn [bind].
    rewrite (proj2 (check_unique_ok ws 0 [])); [reflexivity|]. split; [exact ND|intros ? ? []].
Qed.

Theorem generate_one_ok f wl : generate_one f = Ok wl <->
  exists ws, wordlist_file f ws /\ wl = {| wl_words := ws; wl_index := index_entries 0 ws |}.
Proof.
  unfold generate_one, wordlist_file. split.
  - destruct (read_wordlist f) as [ws|e|] eqn:E; cbn [bind]; [|discriminate|discriminate].
    destruct (N.of_nat (length ws) =? 2048) eqn:EL; [|discriminate]. intros [= <-].
    apply N.eqb_eq in EL. apply read_wordlist_ok in E as [ps [H1 [H2 [H3 H4]]]]. exists ws. eauto 10.
  - intros [ws [[ps [H1 [H2 [H3 [H4 H5]]]]] ->]].
    rewrite (proj2 (read_wordlist_ok f ws)) by eauto 10. cbn [bind].
    apply N.eqb_eq in H5. rewrite H5. reflexivity.
Qed.

Theorem generate_one_no_panic f : generate_one f <> Panic.
Proof.
  unfold generate_one, read_wordlist.
  pose proof (read_loop_no_panic (raw_lines [] f) 1) as H1.
  destruct (read_loop 1 (raw_lines [] f)) as [l|e|]; cbn [bind]; [|discriminate|congruence].
  pose proof (check_unique_no_panic l 0 []) as H2.
  destruct (check_unique 0 [] l); cbn [bind]; [|discriminate|congruence].
  destruct (_ =? _); discriminate.
Qed.

(** ** The INDEX map *)
Lemma phf_get_index ws : forall k w i, NoDup ws ->
  (phf_get (index_entries k ws) w = Some i <-> k <= i /\ nth_error ws (N.to_nat (i - k)) = Some w).
Proof.
  induction ws as [|v ws IH]; intros k w i ND; cbn [index_entries phf_get].
  - split; [discriminate|]. intros [_ H]. destruct (N.to_nat (i - k)); discriminate.
  - inversion ND as [|? ? Hv ND']; subst. destruct (str_eqb w v) eqn:E.
    + apply str_eqb_eq in E. subst w. split.
      * intros [= <-]. split; [lia|]. replace (k - k) with 0 by lia. reflexivity.
      * intros [Hk H]. destruct (N.to_nat (i - k)) as [|m] eqn:Em; [f_equal; lia|].
        cbn in H. apply nth_error_In in H. contradiction.
    + rewrite IH by exact ND'. split.
      * intros [Hk H]. split; [lia|]. replace (N.to_nat (i - k)) with (S (N.to_nat (i - (k + 1)))) by lia. exact H.
      * intros [Hk H]. destruct (N.to_nat (i - k)) as [|m] eqn:Em.
        { cbn in H. injection H as <-. rewrite (proj2 (str_eqb_eq v v) eq_refl) in E. discriminate. }
        split; [lia|]. replace (N.to_nat (i - (k + 1))) with m by lia. exact H.
Qed.

Lemma index_entries_spec ws : forall k,
  index_entries k ws = combine ws (map (fun j => k + N.of_nat j) (seq 0 (length ws))).
Proof.
  induction ws as [|w ws IH]; intros k; cbn [index_entries length seq map combine]; [reflexivity|].
  rewrite IH, <- seq_shift, map_map. f_equal; [f_equal; lia|]. f_equal.
  apply map_ext. intros. lia.
Qed.

(** Any generated word list obeys the contract, given whitespace-free NFKD words. *)
Lemma generated_contract U f wl : generate_one f = Ok wl ->
  Forall (fun w => Forall (fun c => is_ws c = false) w /\ nfkd U w = w) (wl_words wl) ->
  lang_contract U (wordlist_language wl).
Proof.
  intros G F. apply generate_one_ok in G as [ws [[ps [_ [_ [Hc [ND HL]]]]] ->]].
  cbn [wl_words] in F. constructor; cbn [wordlist_language lang_words lang_word_of lang_index_of wl_words wl_index].
  - exact HL.
  - exact ND.
  - rewrite Forall_forall in *. intros w Hw. destruct (F w Hw) as [F1 F2]. specialize (Hc w Hw).
    destruct Hc as [[c [t [-> _]]] _]. split; [discriminate|auto].
  - intros i Hi. unfold default_word_of. apply N.ltb_lt in Hi. rewrite Hi. reflexivity.
  - intros w i. rewrite (phf_get_index ws 0 w i ND). rewrite N.sub_0_r. intuition lia.
Qed.

(** ** The ten built-in languages *)
Definition wordlist_of (b : BuiltInLanguage) : Wordlist :=
  match b with
  | BEnglish => wordlist_english
  | BChineseSimplified => wordlist_chinese_simplified
  | BChineseTraditional => wordlist_chinese_traditional
  | BCzech => wordlist_czech
  | BFrench => wordlist_french
  | BItalian => wordlist_italian
  | BJapanese => wordlist_japanese
  | BKorean => wordlist_korean
  | BPortuguese => wordlist_portuguese
  | BSpanish => wordlist_spanish
  end.

Lemma language_of_wordlist b : language_of b = wordlist_language (wordlist_of b).
Proof. destruct b; reflexivity. Qed.

Lemma generated b : generate_one (file_of b) = Ok (wordlist_of b).
Proof.
  destruct b; [exact generated_english|exact generated_chinese_simplified|exact generated_chinese_traditional
    |exact generated_czech|exact generated_french|exact generated_italian|exact generated_japanese
    |exact generated_korean|exact generated_portuguese|exact generated_spanish].
Qed.

Definition word_check (w : str) : bool := forallb (fun c => negb (is_ws c)) w.
Definition words_check (b : BuiltInLanguage) : bool := forallb word_check (wl_words (wordlist_of b)).
Definition nfkd_check (b : BuiltInLanguage) : bool := forallb (is_nfkd_quick ucd15) (wl_words (wordlist_of b)).
Definition scalar_check (b : BuiltInLanguage) : bool := forallb (forallb is_scalar) (wl_words (wordlist_of b)).

Lemma words_checked b : words_check b = true.
Proof. destruct b; vm_cast_no_check (eq_refl true). Qed.
Lemma nfkd_checked b : nfkd_check b = true.
Proof. destruct b; vm_cast_no_check (eq_refl true). Qed.
Lemma scalar_checked b : scalar_check b = true.
Proof. destruct b; vm_cast_no_check (eq_refl true). Qed.

Lemma builtin_no_ws b w : In w (lang_words (language_of b)) -> Forall (fun c => is_ws c = false) w.
Proof.
  rewrite language_of_wordlist. cbn [wordlist_language lang_words]. intros Hw.
  pose proof (words_checked b) as H. unfold words_check in H. rewrite forallb_forall in H.
  specialize (H w Hw). unfold word_check in H. rewrite forallb_forall in H.
  apply Forall_forall. intros c Hc. apply negb_true_iff. apply H. exact Hc.
Qed.

Lemma builtin_scalar b w : In w (lang_words (language_of b)) -> Forall (fun c => is_scalar c = true) w.
Proof.
  rewrite language_of_wordlist. cbn [wordlist_language lang_words]. intros Hw.
  pose proof (scalar_checked b) as H. unfold scalar_check in H. rewrite forallb_forall in H.
  specialize (H w Hw). rewrite forallb_forall in H. apply Forall_forall. exact H.
Qed.

Lemma builtin_nfkd15 b w : In w (lang_words (language_of b)) -> is_nfkd_quick ucd15 w = true.
Proof.
  rewrite language_of_wordlist. cbn [wordlist_language lang_words]. intros Hw.
  pose proof (nfkd_checked b) as H. unfold nfkd_check in H. rewrite forallb_forall in H.
  apply H. exact Hw.
Qed.

(** What the theorems assume of the Unicode data: the structural facts of [ucd_ok]
    and that the built-in words are normalised under it (the Unicode stability
    policy guarantees this for every later version). *)
Record ucd_std (U : ucd) : Prop := {
  std_ok : ucd_ok U;
  std_words : forall b w, In w (lang_words (language_of b)) -> is_nfkd_quick U w = true
}.

Theorem ucd15_std : ucd_std ucd15.
Proof. constructor; [exact ucd15_ok|exact builtin_nfkd15]. Qed.

Theorem builtin_contract U b : ucd_std U -> lang_contract U (language_of b).
Proof.
  intros [OK W]. rewrite language_of_wordlist.
  apply (generated_contract U (file_of b)); [apply generated|].
  apply Forall_forall. intros w Hw. split.
  - apply (builtin_no_ws b). rewrite language_of_wordlist. exact Hw.
  - apply quick_sound; [exact OK|]. apply (W b). rewrite language_of_wordlist. exact Hw.
Qed.
