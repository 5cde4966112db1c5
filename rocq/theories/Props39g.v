(** Property theorems for the bip0039 build script: what its errors say (C70), that the
    generated sources denote the word list (C71), and that every feature selection builds
    exactly the languages it selects (C72). *)
From Verif Require Import Base Str StrProofs Utf8Proofs Language39 BuildScript39 LangSpec39 Builtin39 LangProofs
  Generate39 GenSpec39 GenProofs39 PathSpec32 PathProofs32 Props39.

(** ** C70 *)
Lemma trim_fault s : trim s <> s <->
  s <> [] /\ ((exists c t, s = c :: t /\ is_ws c = true) \/ (exists t c, s = t ++ [c] /\ is_ws c = true)).
Proof.
  assert (E : s = [] \/ s <> []) by (destruct s; [left; reflexivity|right; discriminate]).
  split.
  - intros H. destruct E as [->|E]; [exfalso; apply H; reflexivity|]. split; [exact E|].
    assert (S : exists c t, s = c :: t) by (destruct s as [|c t]; [contradiction|eauto]).
    destruct S as (c & t & S). destruct (is_ws c) eqn:C; [left; exists c, t; auto|].
    destruct (exists_last E) as (t' & c' & E').
    destruct (is_ws c') eqn:C'; [right; exists t', c'; auto|]. exfalso. apply H.
    refine (proj1 (proj2 (trim_clean s) _)). split; [exists c, t; auto|exists t', c'; auto].
  - intros [NE H] T. assert (K : clean_word s) by (apply trim_clean; auto).
    destruct K as ((c & t & E1 & C1) & (t' & c' & E2 & C2)).
    destruct H as [(d & u & E3 & D)|(u & d & E3 & D)].
    + rewrite E1 in E3. injection E3 as <- _. congruence.
    + rewrite E2 in E3. apply app_inj_tail in E3 as [_ <-]. congruence.
Qed.
Lemma line_word_fun p w w' : line_word p w -> line_word p w' -> w = w'.
Proof. rewrite !line_word_iff. intros (s & A & B) (s' & A' & B'). congruence. Qed.
Lemma read_loop_good ps : forall k ws, read_loop k ps = Ok ws <-> Forall2 good_line ps ws.
Proof.
  intros k ws. rewrite read_loop_ok. split.
  - intros [A B]. induction A as [|p w ps ws H A IH]; [constructor|]. inversion B; subst.
    constructor; [split; assumption|auto].
  - induction 1 as [|p w ps ws [H C] A [IH1 IH2]]; split; constructor; assumption.
Qed.
(** The reading loop reports the first bad line. *)
Lemma read_loop_err ps : forall k e, read_loop k ps = Err e <->
  exists before ws p after, ps = before ++ p :: after /\ Forall2 good_line before ws /\
    let n := k + N.of_nat (length before) in
    ((forall w, ~ line_word p w) /\ e = NotUtf8 n) \/
    (exists w, line_word p w /\ trim w <> w /\ e = InvalidWhitespace n) \/
    (line_word p [] /\ e = EmptyLine n).
Proof.
  induction ps as [|p ps IH]; intros k e; cbn [read_loop].
  { split; [discriminate|]. intros (before & ws & p & after & E & _). destruct before; discriminate. }
  assert (HERE : forall e, ((forall w, ~ line_word p w) /\ e = NotUtf8 k) \/
      (exists w, line_word p w /\ trim w <> w /\ e = InvalidWhitespace k) \/ (line_word p [] /\ e = EmptyLine k) ->
    exists before ws p' after, p :: ps = before ++ p' :: after /\ Forall2 good_line before ws /\
    let n := k + N.of_nat (length before) in
    ((forall w, ~ line_word p' w) /\ e = NotUtf8 n) \/
    (exists w, line_word p' w /\ trim w <> w /\ e = InvalidWhitespace n) \/
    (line_word p' [] /\ e = EmptyLine n)).
  { intros e0 H. exists [], [], p, ps. split; [reflexivity|]. split; [constructor|]. cbv zeta.
    cbn [length N.of_nat]. rewrite N.add_0_r. exact H. }
  destruct (line_of p) as [s0|] eqn:E0; cbv zeta.
  - assert (LW : line_word p (strip_cr (fun c => c =? 13) s0)) by (apply line_word_iff; eauto).
    set (s := strip_cr (fun c => c =? 13) s0) in *.
    destruct (str_eqb (trim s) s) eqn:E1; cbn [negb].
    + apply str_eqb_eq in E1. destruct (is_empty s) eqn:E2.
      * assert (S : s = []) by (destruct s; [reflexivity|discriminate]). rewrite S in LW. split.
        -- intros [= <-]. apply HERE. auto.
        -- intros (before & ws & p' & after & E & F & H). destruct before as [|q before].
           ++ cbn [app] in E. injection E as <- <-. cbn [length N.of_nat] in H. rewrite N.add_0_r in H.
              destruct H as [[H _]|[(w & H & T & _)|[_ ->]]]; [exfalso; exact (H _ LW)| |reflexivity].
              rewrite (line_word_fun _ _ _ H LW) in T. exfalso. apply T. reflexivity.
           ++ cbn [app] in E. injection E as <- _. inversion F as [|? w ? ? [L K] _]; subst.
              rewrite (line_word_fun _ _ _ L LW) in K. apply trim_clean in K as [_ K]. congruence.
      * assert (NEs : s <> []) by (intros Q; rewrite Q in E2; discriminate).
        assert (G : good_line p s) by (split; [exact LW|apply trim_clean; auto]).
        specialize (IH (k + 1)). split.
        -- destruct (read_loop (k + 1) ps) as [rest|e'|] eqn:R; cbn [bind]; try discriminate.
           intros [= ->]. destruct (IH e) as [IH1 _]. specialize (IH1 eq_refl). revert IH1.
           intros (before & ws & q & after & E & F & H). exists (p :: before), (s :: ws), q, after.
           split; [rewrite E; reflexivity|]. split; [constructor; assumption|]. cbv zeta in *. cbn [length].
           replace (k + N.of_nat (S (length before))) with (k + 1 + N.of_nat (length before)) by lia. exact H.
        -- intros (before & ws & q & after & E & F & H). destruct before as [|q' before].
           ++ exfalso. cbn [app] in E. injection E as <- <-.
              destruct H as [[H _]|[(w & H & T & _)|[H _]]]; [exact (H _ LW)| |].
              ** rewrite (line_word_fun _ _ _ H LW) in T. exact (T E1).
              ** apply NEs. exact (line_word_fun _ _ _ LW H).
           ++ cbn [app] in E. injection E as <- E. inversion F as [|? ? ? ws' ? F']; subst ws.
              assert (R : read_loop (k + 1) ps = Err e).
              { apply IH. exists before, ws', q, after. split; [exact E|]. split; [exact F'|]. cbv zeta in *.
                cbn [length] in H. replace (k + N.of_nat (S (length before))) with (k + 1 + N.of_nat (length before)) in H by lia.
                exact H. }
              rewrite R. reflexivity.
    + assert (T : trim s <> s) by (intros T; apply str_eqb_eq in T; congruence). split.
      * intros [= <-]. apply HERE. right. left. eauto.
      * intros (before & ws & p' & after & E & F & H). destruct before as [|q before].
        -- cbn [app] in E. injection E as <- <-. cbn [length N.of_nat] in H. rewrite N.add_0_r in H.
           destruct H as [[H _]|[(w & H & _ & ->)|[H _]]]; [exfalso; exact (H _ LW)|reflexivity|].
           exfalso. apply T. rewrite (line_word_fun _ _ _ LW H). reflexivity.
        -- cbn [app] in E. injection E as <- _. inversion F as [|? w ? ? [L K] _]; subst.
           rewrite (line_word_fun _ _ _ L LW) in K. apply trim_clean in K as [K _]. contradiction.
  - assert (LW : forall w, ~ line_word p w) by (intros w H; apply line_word_iff in H as (s & H & _); congruence). split.
    + intros [= <-]. apply HERE. left. auto.
    + intros (before & ws & p' & after & E & F & H). destruct before as [|q before].
      * cbn [app] in E. injection E as <- <-. cbn [length N.of_nat] in H. rewrite N.add_0_r in H.
        destruct H as [[_ ->]|[(w & H & _)|[H _]]]; [reflexivity|exfalso; exact (LW _ H)..].
      * cbn [app] in E. injection E as <- _. inversion F as [|? w ? ? [L _] _]; subst. exfalso. exact (LW _ L).
Qed.
Lemma check_unique_err ws : forall i seen e, check_unique i seen ws = Err e <->
  exists before w after, ws = before ++ w :: after /\ NoDup before /\
    (forall v, In v before -> ~ In v seen) /\ (In w before \/ In w seen) /\
    e = DuplicateWord w (i + 1 + N.of_nat (length before)).
Proof.
  induction ws as [|w ws IH]; intros i seen e; cbn [check_unique].
  { split; [discriminate|]. intros (before & v & after & E & _). destruct before; discriminate. }
  assert (HE : existsb (str_eqb w) seen = true <-> In w seen).
  { rewrite existsb_exists. split.
    - intros [x [Hx E]]. apply str_eqb_eq in E. subst. exact Hx.
    - intros H. exists w. split; [exact H|]. apply str_eqb_eq. reflexivity. }
  destruct (existsb (str_eqb w) seen) eqn:E.
  - assert (IN : In w seen) by (apply HE; reflexivity). split.
    + intros [= <-]. exists [], w, ws. split; [reflexivity|]. split; [constructor|]. split; [intros ? []|].
      split; [right; exact IN|]. cbn [length N.of_nat]. rewrite N.add_0_r. reflexivity.
    + intros (before & v & after & Q & ND & NI & H & ->). destruct before as [|b before].
      * cbn [app] in Q. injection Q as <- <-. cbn [length N.of_nat]. rewrite N.add_0_r. reflexivity.
      * cbn [app] in Q. injection Q as <- _. exfalso. apply (NI w); [left; reflexivity|exact IN].
  - assert (NW : ~ In w seen) by (intros H; apply HE in H; discriminate). rewrite IH. split.
    + intros (before & v & after & -> & ND & NI & H & ->). exists (w :: before), v, after. split; [reflexivity|].
      split; [constructor; [intros K; apply (NI w K); left; reflexivity|exact ND]|].
      split; [intros x [<-|Hx]; [exact NW|intros K; apply (NI x Hx); right; exact K]|].
      split; [destruct H as [H|[<-|H]]; [left; right; exact H|left; left; reflexivity|right; exact H]|].
      f_equal. cbn [length]. lia.
    + intros (before & v & after & Q & ND & NI & H & ->). destruct before as [|b before].
      * cbn [app] in Q. injection Q as <- <-. exfalso. destruct H as [[]|H]. contradiction.
      * cbn [app] in Q. injection Q as <- ->. inversion ND as [|? ? NB ND']; subst.
        exists before, v, after. split; [reflexivity|]. split; [exact ND'|].
        split; [intros x Hx [<-|K]; [contradiction|apply (NI x); [right; exact Hx|exact K]]|].
        split; [destruct H as [[<-|H]|H]; [right; left; reflexivity|left; exact H|right; right; exact H]|].
        f_equal. cbn [length]. lia.
Qed.

(** C70: the script fails exactly for a faulty file, and its error is the first fault. *)
Theorem C70_first_fault file ps e : file_lines file ps ->
  (generate_one file = Err e <-> first_fault ps e).
Proof.
  intros H. apply file_lines_iff in H. unfold generate_one, read_wordlist. rewrite H.
  pose proof (read_loop_no_panic ps 1) as NP1.
  destruct (read_loop 1 ps) as [ws|e1|] eqn:R; cbn [bind]; [| |congruence].
  - pose proof R as G. apply read_loop_good in G.
    assert (NE : forall e', ~ exists before ws' p after, ps = before ++ p :: after /\ Forall2 good_line before ws' /\
      let n := 1 + N.of_nat (length before) in
      ((forall w, ~ line_word p w) /\ e' = NotUtf8 n) \/
      (exists w, line_word p w /\ trim w <> w /\ e' = InvalidWhitespace n) \/ (line_word p [] /\ e' = EmptyLine n)).
    { intros e' K. apply (proj2 (read_loop_err ps 1 e')) in K. congruence. }
    pose proof (check_unique_no_panic ws 0 []) as NP2.
    assert (FUN : forall ws', Forall2 good_line ps ws' -> ws' = ws).
    { intros ws' F. apply (read_loop_good ps 1) in F. congruence. }
    destruct (check_unique 0 [] ws) as [[]|e2|] eqn:C; cbn [bind]; [| |congruence].
    + apply check_unique_ok in C as [ND _].
      split.
      * destruct (N.of_nat (length ws) =? 2048) eqn:Q; [discriminate|]. intros [= <-].
        apply N.eqb_neq in Q. apply ff_count; assumption.
      * intros FF. destruct FF as [before ws' p after E F NL|before ws' p w after E F L N S|before ws' p after E F L|before w after F ND' I|ws' F ND' Q].
        -- exfalso. apply (NE (NotUtf8 (1 + N.of_nat (length before)))). exists before, ws', p, after. auto.
        -- exfalso. apply (NE (InvalidWhitespace (1 + N.of_nat (length before)))). exists before, ws', p, after.
           split; [exact E|]. split; [exact F|]. right. left. exists w. split; [exact L|]. split; [apply trim_fault; auto|reflexivity].
        -- exfalso. apply (NE (EmptyLine (1 + N.of_nat (length before)))). exists before, ws', p, after. split; [exact E|]. split; [exact F|]. right. right. auto.
        -- exfalso. apply FUN in F. subst ws. apply NoDup_remove_2 in ND. apply ND. apply in_or_app. left. exact I.
        -- apply FUN in F. subst ws'. apply N.eqb_neq in Q. rewrite Q. reflexivity.
    + pose proof (proj1 (check_unique_err ws 0 [] e2) C) as (before & w & after & E & ND & _ & I & ->).
      destruct I as [I|[]]. change (0 + 1) with 1. split.
      * intros [= <-]. apply (ff_duplicate ps before w after); [rewrite <- E; exact G|exact ND|exact I].
      * intros FF. destruct FF as [b' ws' p a' E' F NL|b' ws' p w' a' E' F L N S|b' ws' p a' E' F L|b' w' a' F ND' I'|ws' F ND' Q].
        -- exfalso. apply (NE (NotUtf8 (1 + N.of_nat (length b')))). exists b', ws', p, a'. auto.
        -- exfalso. apply (NE (InvalidWhitespace (1 + N.of_nat (length b')))). exists b', ws', p, a'.
           split; [exact E'|]. split; [exact F|]. right. left. exists w'. split; [exact L|]. split; [apply trim_fault; auto|reflexivity].
        -- exfalso. apply (NE (EmptyLine (1 + N.of_nat (length b')))). exists b', ws', p, a'. split; [exact E'|]. split; [exact F|]. right. right. auto.
        -- apply FUN in F. assert (K : check_unique 0 [] ws = Err (DuplicateWord w' (0 + 1 + N.of_nat (length b')))).
           { apply check_unique_err. exists b', w', a'. split; [symmetry; exact F|]. split; [exact ND'|].
             split; [intros ? ? []|]. split; [left; exact I'|reflexivity]. }
           rewrite C in K. change (0 + 1) with 1 in K. exact (match K in _ = r return Err _ = match r with Err e => Err e | _ => Panic end with eq_refl => eq_refl end).
        -- exfalso. apply FUN in F. subst ws'. rewrite E in ND'. apply NoDup_remove_2 in ND'. apply ND'. apply in_or_app. left. exact I.
  - pose proof (proj1 (read_loop_err ps 1 e1) R) as (before & ws & p & after & E & F & K). cbv zeta in K. split.
    + intros [= <-]. destruct K as [[L ->]|[(w & L & T & ->)|[L ->]]].
      * eapply ff_utf8; eassumption.
      * apply trim_fault in T as [T1 T2]. eapply ff_space; eassumption.
      * eapply ff_empty; eassumption.
    + intros FF.
      assert (NG : forall ws', ~ Forall2 good_line ps ws').
      { intros ws' G. apply (read_loop_good ps 1) in G. congruence. }
      assert (OUT : forall b' ws' p' a' e', ps = b' ++ p' :: a' -> Forall2 good_line b' ws' ->
        (let n := 1 + N.of_nat (length b') in
         ((forall w, ~ line_word p' w) /\ e' = NotUtf8 n) \/
         (exists w, line_word p' w /\ trim w <> w /\ e' = InvalidWhitespace n) \/ (line_word p' [] /\ e' = EmptyLine n)) -> Err e1 = Err e' :> res build_err Wordlist).
      { intros b' ws' p' a' e' A B D. assert (Q : read_loop 1 ps = Err e') by (apply read_loop_err; exists b', ws', p', a'; auto).
        congruence. }
      destruct FF as [b' ws' p' a' E' F' NL|b' ws' p' w' a' E' F' L N S|b' ws' p' a' E' F' L|b' w' a' F' ND' I'|ws' F' ND' Q].
      * apply (OUT b' ws' p' a'); auto.
      * apply (OUT b' ws' p' a'); auto. right. left. exists w'. split; [exact L|]. split; [apply trim_fault; auto|reflexivity].
      * apply (OUT b' ws' p' a'); auto.
      * exfalso. exact (NG _ F').
      * exfalso. exact (NG _ F').
Qed.
Print Assumptions C70_first_fault.

(** Three lines: a good one, the same word again, an empty one. *)
Example C70_case :
  file_lines (bytes_of "zoo" ++ [x0a] ++ bytes_of "zoo" ++ [x0a; x0a])
             [(bytes_of "zoo", true); (bytes_of "zoo", true); ([], true)] /\
  generate_one (bytes_of "zoo" ++ [x0a] ++ bytes_of "zoo" ++ [x0a; x0a]) = Err (EmptyLine 3) /\
  generate_one (bytes_of "zoo" ++ [x0a] ++ bytes_of "zoo" ++ [x0a]) = Err (DuplicateWord (lit "zoo") 2).
Proof.
  split; [apply file_lines_iff; reflexivity|]. split; vm_compute; reflexivity.
Qed.

(** ** C71 *)
(** C71: whatever characters [{:?}] escapes as unprintable, rustc reads back the string. *)
Theorem C71_strings special w : Forall (fun c => is_scalar c = true) w ->
  forall v, str_literal (debug_str special w) v <-> v = w.
Proof.
  intros F v. split; [|intros ->; apply debug_str_spec; exact F]. intros H.
  pose proof (debug_str_spec special w F) as K.
  destruct (str_literal_fun _ _ _ _ [] [] H K eq_refl) as [-> _]. reflexivity.
Qed.
Print Assumptions C71_strings.
(** C71: the source written for an accepted file is in the expected syntax and denotes
    exactly the word list of the file. *)
Theorem C71_source special name file wl : ~ In 10 name -> generate_one file = Ok wl ->
  forall wl', compiles (source_text special name wl) wl' <-> wl' = wl.
Proof.
  intros NN G wl'. pose proof (source_compiles special name file wl NN G) as K. split.
  - intros H. exact (compiles_fun _ _ _ H K).
  - intros ->. exact K.
Qed.
Print Assumptions C71_source.
(** A quote, a backslash, a line feed, a combining accent (escaped), a letter. *)
Example C71_case :
  debug_str (fun c => c =? 769) [34; 92; 10; 769; 233] = [34; 92; 34; 92; 92; 92; 110; 92; 117; 123; 51; 48; 49; 125; 233; 34] /\
  str_literal [34; 92; 34; 92; 92; 92; 110; 92; 117; 123; 51; 48; 49; 125; 233; 34] [34; 92; 10; 769; 233].
Proof.
  assert (E : debug_str (fun c => c =? 769) [34; 92; 10; 769; 233] = [34; 92; 34; 92; 92; 92; 110; 92; 117; 123; 51; 48; 49; 125; 233; 34])
    by reflexivity.
  split; [exact E|]. rewrite <- E. apply C71_strings; [|reflexivity]. repeat constructor.
Qed.
Example C71_case_japanese special :
  compiles (source_text special (lit "japanese.txt") (wordlist_of BJapanese)) (wordlist_of BJapanese).
Proof.
  apply (C71_source special (lit "japanese.txt") (file_of BJapanese)); [|exact (generated BJapanese)|reflexivity].
  intros I. vm_compute in I. repeat (destruct I as [I|I]; [discriminate I|]). exact I.
Qed.

(** ** C72 *)
Definition keys : list str := Eval vm_compute in map fst feature_table.
Lemma enabled_key req f : enabled req f -> In f keys.
Proof.
  assert (T : forallb (fun e : str * list str => forallb (fun g => existsb (str_eqb g) keys) (snd e)) feature_table = true)
    by (vm_compute; reflexivity).
  intros [f' H K|f' g gs H I J]; [exact K|].
  rewrite forallb_forall in T. specialize (T _ I). cbn [snd] in T. rewrite forallb_forall in T. specialize (T _ J).
  apply existsb_exists in T as (x & Hx & E). apply str_eqb_eq in E as ->. exact Hx.
Qed.
Lemma env_name_inj f g : In f keys -> In g keys -> env_name f = env_name g -> f = g.
Proof.
  assert (T : forallb (fun f => forallb (fun g => implb (str_eqb (env_name f) (env_name g)) (str_eqb f g)) keys) keys = true)
    by (vm_compute; reflexivity).
  intros F G E. rewrite forallb_forall in T. specialize (T _ F). rewrite forallb_forall in T. specialize (T _ G).
  rewrite (proj2 (str_eqb_eq _ _) E) in T. cbn [implb] in T. apply str_eqb_eq. exact T.
Qed.
Lemma variant_key b f : variant_feature b = Some f -> In f keys.
Proof.
  intros H. assert (K : existsb (str_eqb f) keys = true) by (destruct b; [discriminate|injection H as <-; vm_compute; reflexivity..]).
  apply existsb_exists in K as (x & Hx & E). apply str_eqb_eq in E as ->. exact Hx.
Qed.
Lemma cargo_env_feature req env f : cargo_env req env -> In f keys -> (env (env_name f) = true <-> enabled req f).
Proof.
  intros H K. unfold cargo_env in H. rewrite H. split; [|eauto]. intros (g & E & Q).
  rewrite (env_name_inj f g K (enabled_key _ _ E) (eq_sym Q)). exact E.
Qed.
Definition lang_name (b : BuiltInLanguage) : str := fst (fst (module_of b)).
Definition entry_of (b : BuiltInLanguage) : str * str * option str :=
  (lang_name b, words_file b, option_map env_name (variant_feature b)).
Lemma langs_entries : langs = map entry_of [BEnglish; BChineseSimplified; BChineseTraditional; BCzech; BFrench;
  BItalian; BJapanese; BKorean; BPortuguese; BSpanish].
Proof. vm_compute. reflexivity. Qed.
Lemma langs_entry e : In e langs <-> exists b, e = entry_of b.
Proof.
  rewrite langs_entries, in_map_iff. split.
  - intros (b & <- & _). eauto.
  - intros (b & ->). exists b. split; [reflexivity|]. destruct b; cbn [In]; auto 12.
Qed.
Lemma out_included b : out_name (lang_name b) = included b.
Proof. destruct b; vm_compute; reflexivity. Qed.
Lemma included_inj b c : included b = included c -> b = c.
Proof. destruct b, c; (reflexivity || (intros H; vm_compute in H; discriminate H)). Qed.
Definition on (env : str -> bool) (v : option str) : Prop := match v with Some v => env v = true | None => True end.
Lemma on_cfg req env b : cargo_env req env ->
  (on env (option_map env_name (variant_feature b)) <-> cfg_on req (variant_feature b)).
Proof.
  intros H. destruct (variant_feature b) as [f|] eqn:E; cbn [option_map on cfg_on]; [|tauto].
  apply cargo_env_feature; [exact H|]. exact (variant_key b f E).
Qed.
Lemma on_dec env v : {on env v} + {match v with Some v => negb (env v) | None => false end = true}.
Proof. destruct v as [v|]; cbn [on]; [|left; exact I]. destruct (env v); [left|right]; reflexivity. Qed.
Lemma on_false env v : on env v -> match v with Some v => negb (env v) | None => false end = false.
Proof. destruct v as [v|]; cbn [on]; [intros ->|]; reflexivity. Qed.
Section MainLoop.
Variables (special : N -> bool) (dir : str -> option (list byte)) (env : str -> bool).
Definition writes (e : str * str * option str) (o : str * str) : Prop :=
  let '(lang, file, v) := e in on env v /\ exists bytes wl, dir file = Some bytes /\ generate_one bytes = Ok wl /\
    o = (out_name lang, source_text special file wl).
Definition breaks (e : str * str * option str) (err : main_err) : Prop :=
  let '(lang, file, v) := e in on env v /\
    ((dir file = None /\ err = MissingFile file) \/
     exists bytes e', dir file = Some bytes /\ generate_one bytes = Err e' /\ err = BadFile lang e').
Lemma entry_cases e : let '(lang, file, v) := e in
  match v with Some v => negb (env v) | None => false end = true \/ (exists o, writes e o) \/ exists err, breaks e err.
Proof.
  destruct e as [[lang file] v]. unfold writes, breaks. destruct (on_dec env v) as [O|O]; [right|left; exact O].
  destruct (dir file) as [bytes|] eqn:D.
  - pose proof (generate_one_no_panic bytes) as NP. destruct (generate_one bytes) as [wl|e|] eqn:G; [| |congruence].
    + left. eexists. split; [exact O|]. exists bytes, wl. auto.
    + right. eexists. split; [exact O|]. right. exists bytes, e. auto.
  - right. eexists. split; [exact O|]. auto.
Qed.
Lemma main_loop_skip lang file v ls : match v with Some v => negb (env v) | None => false end = true ->
  main_loop special dir env ((lang, file, v) :: ls) = main_loop special dir env ls.
Proof. intros H. cbn [main_loop]. rewrite H. reflexivity. Qed.
Lemma main_loop_write e o ls : writes e o ->
  main_loop special dir env (e :: ls) = let? rest := main_loop special dir env ls in Ok (o :: rest).
Proof.
  destruct e as [[lang file] v]. intros (O & bytes & wl & D & G & ->). cbn [main_loop].
  rewrite (on_false _ _ O), D, G. reflexivity.
Qed.
Lemma main_loop_break e err ls : breaks e err -> main_loop special dir env (e :: ls) = Err err.
Proof.
  destruct e as [[lang file] v]. intros (O & [(D & ->)|(bytes & e' & D & G & ->)]); cbn [main_loop];
    rewrite (on_false _ _ O), D; [|rewrite G]; reflexivity.
Qed.
Lemma skip_no_write lang file v : match v with Some v => negb (env v) | None => false end = true ->
  (forall o, ~ writes (lang, file, v) o) /\ (forall err, ~ breaks (lang, file, v) err).
Proof. intros H. split; intros o (O & _); rewrite (on_false _ _ O) in H; discriminate. Qed.
Lemma write_no_break e o err : writes e o -> ~ breaks e err.
Proof.
  destruct e as [[lang file] v]. intros (_ & bytes & wl & D & G & _) (_ & [(D' & _)|(bytes' & e' & D' & G' & _)]); congruence.
Qed.
Lemma write_fun e o o' : writes e o -> writes e o' -> o = o'.
Proof. destruct e as [[lang file] v]. intros (_ & b & w & D & G & ->) (_ & b' & w' & D' & G' & ->). congruence. Qed.
Lemma main_loop_ok ls : forall out, main_loop special dir env ls = Ok out ->
  (forall o, In o out <-> exists e, In e ls /\ writes e o) /\ (forall e err, In e ls -> ~ breaks e err).
Proof.
  induction ls as [|e ls IH]; intros out.
  { intros [= <-]. split; [intros o; split; [intros []|intros (e & [] & _)]|intros e err []]. }
  pose proof (entry_cases e) as EC. destruct e as [[lang file] v]. destruct EC as [H|[[o H]|[err H]]].
  - rewrite main_loop_skip by exact H. intros E. apply IH in E as [A B]. apply (skip_no_write lang file v) in H as [H1 H2]. split.
    + intros o. rewrite A. split; [intros (e & I & W); exists e; split; [right; exact I|exact W]|].
      intros (e & [<-|I] & W); [exfalso; exact (H1 o W)|eauto].
    + intros e err [<-|I]; [apply H2|apply B; exact I].
  - rewrite (main_loop_write _ o) by exact H. destruct (main_loop special dir env ls) as [rest|e'|]; cbn [bind]; try discriminate.
    intros [= <-]. destruct (IH rest eq_refl) as [A B]. split.
    + intros o'. split.
      * intros [<-|I]; [exists (lang, file, v); split; [left; reflexivity|exact H]|].
        apply A in I as (e & I & W). exists e. split; [right; exact I|exact W].
      * intros (e & [<-|I] & W); [left; exact (write_fun _ _ _ H W)|right; apply A; eauto].
    + intros e err [<-|I]; [exact (write_no_break _ _ _ H)|apply B; exact I].
  - rewrite (main_loop_break _ err) by exact H. discriminate.
Qed.
Lemma main_loop_err ls : forall err, main_loop special dir env ls = Err err <->
  exists before e after, ls = before ++ e :: after /\ breaks e err /\ forall d err', In d before -> ~ breaks d err'.
Proof.
  induction ls as [|e ls IH]; intros err.
  { split; [discriminate|]. intros ([|? ?] & ? & ? & E & _); discriminate. }
  assert (BF : forall e err err', breaks e err -> breaks e err' -> err = err').
  { intros [[l f] v] r r' (_ & [(D & ->)|(b & x & D & G & ->)]) (_ & [(D' & ->)|(b' & x' & D' & G' & ->)]); congruence. }
  assert (STEP : (forall err', ~ breaks e err') -> main_loop special dir env ls = Err err <->
    exists before e0 after, e :: ls = before ++ e0 :: after /\ breaks e0 err /\ forall d err', In d before -> ~ breaks d err').
  { intros NB. rewrite IH. split.
    - intros (before & d & after & -> & B & N). exists (e :: before), d, after. split; [reflexivity|]. split; [exact B|].
      intros x err' [<-|I]; [apply NB|apply N; exact I].
    - intros (before & d & after & E & B & N). destruct before as [|x before].
      + injection E as <- <-. exfalso. exact (NB _ B).
      + injection E as <- ->. exists before, d, after. split; [reflexivity|]. split; [exact B|].
        intros y err' I. apply N. right. exact I. }
  pose proof (entry_cases e) as EC. destruct e as [[lang file] v]. destruct EC as [H|[[o H]|[err0 H]]].
  - rewrite main_loop_skip by exact H. apply STEP. apply (skip_no_write lang file v) in H as [_ H2]. exact H2.
  - rewrite (main_loop_write _ o) by exact H. rewrite <- STEP by (intros err'; exact (write_no_break _ _ _ H)).
    destruct (main_loop special dir env ls); cbn [bind]; split; (discriminate || congruence).
  - rewrite (main_loop_break _ err0) by exact H. split.
    + intros [= <-]. exists [], (lang, file, v), ls. split; [reflexivity|]. split; [exact H|]. intros ? ? [].
    + intros (before & d & after & E & B & N). destruct before as [|x before].
      * injection E as <- <-. rewrite (BF _ _ _ H B). reflexivity.
      * injection E as <- _. exfalso. exact (N _ err0 (or_introl eq_refl) H).
Qed.
Lemma main_loop_no_panic ls : main_loop special dir env ls <> Panic.
Proof.
  induction ls as [|e ls IH]; [discriminate|].
  pose proof (entry_cases e) as EC. destruct e as [[lang file] v]. destruct EC as [H|[[o H]|[err0 H]]].
  - rewrite main_loop_skip by exact H. exact IH.
  - rewrite (main_loop_write _ o) by exact H. destruct (main_loop special dir env ls); cbn [bind]; congruence.
  - rewrite (main_loop_break _ err0) by exact H. discriminate.
Qed.
End MainLoop.

Lemma words_file_lf b : ~ In 10 (words_file b).
Proof. destruct b; intros I; vm_compute in I; repeat (destruct I as [I|I]; [discriminate I|]); exact I. Qed.

(** C72: variants, marker types and modules are switched by the same features, and each
    marker type uses the module of its language. *)
Theorem C72_switches b :
  snd (module_of b) = variant_feature b /\ marker_of b = (fst (fst (module_of b)), variant_feature b) /\
  forall c, variant_feature b = variant_feature c -> b = c.
Proof.
  split; [destruct b; reflexivity|]. split; [destruct b; reflexivity|].
  intros c. destruct b, c; (reflexivity || (intros H; vm_compute in H; discriminate H)).
Qed.
Print Assumptions C72_switches.

(** C72: the module of a language includes a generated source exactly when the selected
    features compile the module, and that source denotes the words of its file. *)
Theorem C72_selected req special dir env out b :
  cargo_env req env -> build_main special dir env = Ok out ->
  (cfg_on req (variant_feature b) <-> exists text, In (included b, text) out) /\
  (forall text, In (included b, text) out ->
     exists bytes wl, dir (words_file b) = Some bytes /\ generate_one bytes = Ok wl /\
       forall wl', compiles text wl' <-> wl' = wl).
Proof.
  intros EV H. apply main_loop_ok in H as [A B].
  assert (K : forall text, In (included b, text) out -> writes special dir env (entry_of b) (included b, text)).
  { intros text I. apply A in I as (e & I & W). apply langs_entry in I as (c & ->).
    pose proof W as (_ & bytes & wl & _ & _ & E). injection E as E _. rewrite out_included in E.
    apply included_inj in E as <-. exact W. }
  split.
  - rewrite <- (on_cfg req env b EV). split.
    + intros O. pose proof (entry_cases special dir env (entry_of b)) as EC.
      change (match option_map env_name (variant_feature b) with Some v => negb (env v) | None => false end = true \/
        (exists o, writes special dir env (entry_of b) o) \/ exists err, breaks dir env (entry_of b) err) in EC.
      destruct EC as [EC|[[o W]|[err BR]]].
      * rewrite (on_false _ _ O) in EC. discriminate.
      * exists (snd o). apply A. exists (entry_of b). split; [apply langs_entry; eauto|].
        pose proof W as (_ & bytes & wl & _ & _ & E). rewrite out_included in E. rewrite E in *. exact W.
      * exfalso. refine (B (entry_of b) err _ BR). apply langs_entry. eauto.
    + intros (text & I). apply K in I as (O & _). exact O.
  - intros text I. apply K in I as (_ & bytes & wl & D & G & E). injection E as _ ->.
    exists bytes, wl. split; [exact D|]. split; [exact G|].
    exact (C71_source special (words_file b) bytes wl (words_file_lf b) G).
Qed.
Print Assumptions C72_selected.

(** C72: the script fails exactly when the file of a selected language is missing or faulty,
    and names that language or file. *)
Theorem C72_failure req special dir env :
  cargo_env req env ->
  build_main special dir env <> Panic /\
  (forall b, cfg_on req (variant_feature b) ->
     (dir (words_file b) = None \/ exists bytes e, dir (words_file b) = Some bytes /\ generate_one bytes = Err e) ->
     exists err, build_main special dir env = Err err) /\
  (forall err, build_main special dir env = Err err ->
     exists b, cfg_on req (variant_feature b) /\
       ((dir (words_file b) = None /\ err = MissingFile (words_file b)) \/
        exists bytes e, dir (words_file b) = Some bytes /\ generate_one bytes = Err e /\
          err = BadFile (fst (fst (module_of b))) e)).
Proof.
  intros EV. split; [apply main_loop_no_panic|]. split.
  - intros b O F. apply (on_cfg req env b EV) in O.
    assert (BR : exists err, breaks dir env (entry_of b) err).
    { destruct F as [D|(bytes & e & D & G)]; eexists; (split; [exact O|]); [left; auto|right; exists bytes, e; auto]. }
    destruct BR as [err BR]. destruct (build_main special dir env) as [out|e|] eqn:Q; [|eauto|].
    + exfalso. apply main_loop_ok in Q as [_ N]. refine (N _ err _ BR). apply langs_entry. eauto.
    + exfalso. exact (main_loop_no_panic _ _ _ _ Q).
  - intros err Q. apply main_loop_err in Q as (before & e & after & E & BR & _).
    assert (I : In e langs) by (rewrite E; apply in_elt). apply langs_entry in I as (b & ->).
    exists b. destruct BR as (O & BR). split; [apply (on_cfg req env b EV); exact O|exact BR].
Qed.
Print Assumptions C72_failure.

(** C72: with the files of the repository every feature selection builds, and each compiled
    module has the words of its language; files of other languages do not matter. *)
Theorem C72_builtin req special dir env :
  cargo_env req env -> (forall b, cfg_on req (variant_feature b) -> dir (words_file b) = Some (file_of b)) ->
  exists out, build_main special dir env = Ok out /\
    forall b, cfg_on req (variant_feature b) ->
      exists text, In (included b, text) out /\ forall wl, compiles text wl <-> wl = wordlist_of b.
Proof.
  intros EV F. destruct (build_main special dir env) as [out|e|] eqn:Q.
  - exists out. split; [reflexivity|]. intros b O. destruct (C72_selected req special dir env out b EV Q) as [A B].
    destruct (proj1 A O) as [text I]. exists text. split; [exact I|].
    destruct (B text I) as (bytes & wl & D & G & H). rewrite (F b O) in D. injection D as <-.
    rewrite generated in G. injection G as <-. exact H.
  - exfalso. destruct (C72_failure req special dir env EV) as (_ & _ & N). destruct (N e Q) as (b & O & K).
    rewrite (F b O) in K. destruct K as [[K _]|(bytes & e' & D & G & _)]; [discriminate|].
    injection D as <-. rewrite generated in G. discriminate.
  - exfalso. exact (main_loop_no_panic _ _ _ _ Q).
Qed.
Print Assumptions C72_builtin.

(** C72: [all-languages] selects every language, the default features only English, a
    language feature just that one besides English. *)
Lemma enabled_closed req (P : str -> bool) :
  (forall f, In f req -> P f = true) ->
  forallb (fun e : str * list str => implb (P (fst e)) (forallb P (snd e))) feature_table = true ->
  forall f, enabled req f -> P f = true.
Proof.
  intros R T f H. induction H as [f I K|f g gs H IH I J]; [exact (R f I)|].
  rewrite forallb_forall in T. specialize (T _ I). cbn [fst snd] in T. rewrite IH in T. cbn [implb] in T.
  rewrite forallb_forall in T. exact (T _ J).
Qed.
Theorem C72_features req :
  (In (lit "all-languages") req -> forall b, cfg_on req (variant_feature b)) /\
  (forall b c f, variant_feature b = Some f ->
     (cfg_on [lit "default"; f] (variant_feature c) <-> c = b \/ c = BEnglish)) /\
  (forall b, cfg_on [lit "default"] (variant_feature b) <-> b = BEnglish).
Proof.
  split; [|split].
  - intros I b. destruct (variant_feature b) as [f|] eqn:E; cbn [cfg_on]; [|exact Logic.I].
    apply (en_implied req (lit "all-languages") f (snd (nth 3 feature_table ([], [])))).
    + apply en_req; [exact I|]. cbn. auto 10.
    + cbn [nth feature_table snd In]. auto 10.
    + destruct b; try discriminate E; injection E as <-; cbn; auto 12.
  - intros b c f E. split.
    + intros H. destruct (variant_feature c) as [g|] eqn:Ec; cbn [cfg_on] in H.
      * left. assert (Q : g = f).
        { assert (P : (str_eqb f g || existsb (str_eqb g) [lit "default"; lit "std"; lit "rand"]) = true).
          { refine (enabled_closed [lit "default"; f] (fun x => str_eqb f x || existsb (str_eqb x) [lit "default"; lit "std"; lit "rand"]) _ _ g H).
            - intros x [<-|[<-|[]]]; [rewrite orb_true_r; reflexivity|]. rewrite (proj2 (str_eqb_eq f f) eq_refl). reflexivity.
            - destruct b; try discriminate E; injection E as <-; vm_compute; reflexivity. }
          destruct b; try discriminate E; destruct c; try discriminate Ec; injection E as <-; injection Ec as <-;
            (reflexivity || (vm_compute in P; discriminate P)). }
        subst g. apply (proj2 (proj2 (C72_switches c))). congruence.
      * right. destruct c; (reflexivity || discriminate).
    + intros [->| ->]; [|exact Logic.I]. rewrite E. cbn [cfg_on]. apply en_req; [right; left; reflexivity|].
      exact (variant_key b f E).
  - intros b. split; [|intros ->; exact Logic.I]. destruct (variant_feature b) as [g|] eqn:Eb; cbn [cfg_on].
    + intros H. exfalso.
      assert (P : existsb (str_eqb g) [lit "default"; lit "std"; lit "rand"] = true).
      { refine (enabled_closed [lit "default"] (fun x => existsb (str_eqb x) [lit "default"; lit "std"; lit "rand"]) _ _ g H).
        - intros x [<-|[]]. reflexivity.
        - vm_compute. reflexivity. }
      destruct b; try discriminate Eb; injection Eb as <-; vm_compute in P; discriminate P.
    + intros _. destruct b; (reflexivity || discriminate).
Qed.
Print Assumptions C72_features.

(** The default features plus French: two files are written. *)
Definition ex_env (v : str) : bool := existsb (str_eqb v) [lit "CARGO_FEATURE_DEFAULT"; lit "CARGO_FEATURE_STD";
  lit "CARGO_FEATURE_RAND"; lit "CARGO_FEATURE_FRENCH"].
Definition ex_dir (name : str) : option (list byte) :=
  if str_eqb name (lit "english.txt") then Some (file_of BEnglish)
  else if str_eqb name (lit "french.txt") then Some (file_of BFrench) else None.
Lemma ex_cargo_env : cargo_env [lit "default"; lit "french"] ex_env.
Proof.
  intros v. unfold ex_env. rewrite existsb_exists. split.
  - intros (x & I & E). apply str_eqb_eq in E as ->. cbn [In] in I.
    assert (D : enabled [lit "default"; lit "french"] (lit "default")) by (apply en_req; [left; reflexivity|]; cbn; auto).
    destruct I as [<-|[<-|[<-|[<-|[]]]]].
    * exists (lit "default"). split; [exact D|vm_compute; reflexivity].
    * exists (lit "std"). split; [|vm_compute; reflexivity].
      apply (en_implied _ (lit "default") _ [lit "std"; lit "rand"]); [exact D|cbn; auto|cbn; auto].
    * exists (lit "rand"). split; [|vm_compute; reflexivity].
      apply (en_implied _ (lit "default") _ [lit "std"; lit "rand"]); [exact D|cbn; auto|cbn; auto].
    * exists (lit "french"). split; [|vm_compute; reflexivity]. apply en_req; [right; left; reflexivity|]. cbn. auto 20.
  - intros (f & H & <-). exists (env_name f). split; [|apply str_eqb_eq; reflexivity].
    assert (P : existsb (str_eqb f) [lit "default"; lit "std"; lit "rand"; lit "french"] = true).
    { refine (enabled_closed [lit "default"; lit "french"] (fun x => existsb (str_eqb x) [lit "default"; lit "std"; lit "rand"; lit "french"]) _ _ f H).
      - intros x [<-|[<-|[]]]; reflexivity.
      - vm_compute. reflexivity. }
    apply existsb_exists in P as (x & I & E). apply str_eqb_eq in E as ->.
    destruct I as [<-|[<-|[<-|[<-|[]]]]]; vm_compute; auto 10.
Qed.
Example C72_case special : exists out, build_main special ex_dir ex_env = Ok out /\
  forall b, (exists text, In (included b, text) out) <-> b = BFrench \/ b = BEnglish.
Proof.
  assert (S : forall b, cfg_on [lit "default"; lit "french"] (variant_feature b) <-> b = BFrench \/ b = BEnglish).
  { intros b. exact (proj1 (proj2 (C72_features [])) BFrench b (lit "french") eq_refl). }
  destruct (C72_builtin [lit "default"; lit "french"] special ex_dir ex_env ex_cargo_env) as (out & E & _).
  - intros b H. apply S in H as [-> | ->]; reflexivity.
  - exists out. split; [exact E|]. intros b. rewrite <- S. symmetry.
    exact (proj1 (C72_selected _ special ex_dir ex_env out b ex_cargo_env E)).
Qed.
