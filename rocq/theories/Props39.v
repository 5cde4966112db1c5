(** Property theorems for the bip0039 crate (C01-C21 of properties.jsonl).  Every
    theorem is followed by its assumptions and by a concrete case. *)
From Verif Require Import Base Sha2 Str StrProofs Unicode UnicodeTables UnicodeProofs BitAcc Language39
  BuildScript39 Builtin39 Mnemonic39 Spec39 BitsProofs LangSpec39 LangProofs MnemonicProofs
  ChecksumProofs QueueSpec39 ExtraProofs39 Words_english Words_japanese Eqb39.

(** Concrete data used by the examples: BIP-0039 test vectors. *)
Definition b64 : build := {| b_debug := true; b_usize_bits := 64 |}.
Definition ex_entropy : list byte := unhex "7f7f7f7f7f7f7f7f7f7f7f7f7f7f7f7f".
Definition ex_phrase : str :=
  lit "legal winner thank year wave sausage worth useful legal winner thank yellow".
Definition ex_mnemonic : Mnemonic := {| m_phrase := ex_phrase; m_entropy := ex_entropy |}.
Lemma b64_valid : valid_build b64.
Proof. right. reflexivity. Qed.

(** A custom language that follows the trait documentation loosely: words may be
    anything, [index_of] may return any number. *)
Definition silly : Language := {|
  lang_words := []; lang_word_of := fun _ => Some []; lang_index_of := fun w => Some (2 ^ 70) |}.

(** ** C01 *)
Theorem C01_entropy_roundtrip U B b e :
  ucd_std U -> valid_build B -> legal_entropy_len (length e) ->
  exists m, from_entropy B (language_of b) e = Ok m /\ entropy m = e /\
            from_phrase U (language_of b) (phrase m) = Ok m.
Proof.
  intros HU HB HL. pose proof (builtin_contract U b HU) as LC.
  destruct (from_entropy_words U _ LC B e HB HL) as [idxs [ws [HI [F [Fin [_ E]]]]]].
  eexists. split; [exact E|]. split; [reflexivity|]. cbn [phrase m_phrase].
  rewrite from_phrase_nfkd by apply HU. rewrite (nfkd_join U _ LC) by (assumption || apply HU).
  eapply decode_encoded; eassumption.
Qed.
Print Assumptions C01_entropy_roundtrip.

(** The same for every language meeting the documented contract. *)
Theorem C01_entropy_roundtrip_custom U B L e :
  ucd_ok U -> lang_contract U L -> valid_build B -> legal_entropy_len (length e) ->
  exists m, from_entropy B L e = Ok m /\ entropy m = e /\ from_phrase U L (phrase m) = Ok m.
Proof.
  intros HU LC HB HL.
  destruct (from_entropy_words U _ LC B e HB HL) as [idxs [ws [HI [F [Fin [_ E]]]]]].
  eexists. split; [exact E|]. split; [reflexivity|]. cbn [phrase m_phrase].
  rewrite from_phrase_nfkd by exact HU. rewrite (nfkd_join U _ LC) by assumption.
  eapply decode_encoded; eassumption.
Qed.
Print Assumptions C01_entropy_roundtrip_custom.

Example C01_case : ucd_std ucd15 /\ valid_build b64 /\ legal_entropy_len (length ex_entropy) /\
  from_entropy b64 (language_of BEnglish) ex_entropy = Ok ex_mnemonic /\
  from_phrase ucd15 (language_of BEnglish) ex_phrase = Ok ex_mnemonic.
Proof.
  split; [exact ucd15_std|]. split; [exact b64_valid|]. split; [cbn; tauto|].
  split; run_m.
Qed.

(** ** C02 *)
Theorem C02_legal_sizes B L e :
  valid_build B -> 8 * N.of_nat (length e) < 2 ^ b_usize_bits B ->
  (forall i, i < 2048 -> lang_word_of L i <> None) ->
  ((exists m, from_entropy B L e = Ok m) <-> legal_entropy_len (length e)) /\
  (~ legal_entropy_len (length e) ->
   from_entropy B L e = Err (BadEntropyBitCount (8 * N.of_nat (length e)))).
Proof.
  intros HB HW HL. split; [split|].
  - intros [m E]. destruct (in_dec Nat.eq_dec (length e) [16; 20; 24; 28; 32]%nat) as [H|H]; [exact H|].
    rewrite from_entropy_illegal in E by assumption. discriminate.
  - intros H. destruct (from_entropy_ok B L e HB H HL) as [idxs [ws [_ [_ E]]]]. eauto.
  - intros H. apply from_entropy_illegal; assumption.
Qed.
Print Assumptions C02_legal_sizes.

(** Without the guard the claim is false: on a 32-bit release build [len * 8]
    wraps, and a byte string of 2^29 + 16 bytes is accepted. *)
Theorem C02_wrapping_refuted :
  exists B e, valid_build B /\ ~ legal_entropy_len (length e) /\
    exists m, from_entropy B (language_of BEnglish) e = Ok m.
Proof.
  exists {| b_debug := false; b_usize_bits := 32 |}, (repeat x00 (N.to_nat (2 ^ 29 + 16))).
  assert (HL : N.of_nat (length (repeat x00 (N.to_nat (2 ^ 29 + 16)))) = 2 ^ 29 + 16)
    by (rewrite repeat_length; apply N2Nat.id).
  split; [left; reflexivity|]. split.
  - intros H. apply legal_le in H. revert HL H. generalize (length (repeat x00 (N.to_nat (2 ^ 29 + 16)))).
    intros n HL H. lia.
  - apply from_entropy_wrapped.
    + reflexivity.
    + rewrite HL. cbn. lia.
    + rewrite HL. left. reflexivity.
    + apply (lc_total ucd15). apply builtin_contract. exact ucd15_std.
Qed.
Print Assumptions C02_wrapping_refuted.

Example C02_case :
  from_entropy b64 English (repeat x07 17) = Err (BadEntropyBitCount 136) /\
  from_entropy b64 English [] = Err (BadEntropyBitCount 0) /\
  is_ok (from_entropy b64 English (repeat x07 24)) = true.
Proof. split; [run_m|]. split; [run_m|vm_cast_no_check (eq_refl true)]. Qed.

(** ** C03 *)
Theorem C03_phrase_is_bip39 U B L e m :
  lang_contract U L -> valid_build B -> legal_entropy_len (length e) ->
  from_entropy B L e = Ok m ->
  exists idxs ws, bip39_indices e idxs /\
    Forall2 (fun i w => nth_error (lang_words L) (N.to_nat i) = Some w) idxs ws /\
    phrase m = join [32] ws /\ entropy m = e /\
    (4 * length ws = 3 * length e)%nat /\ legal_word_count (length ws).
Proof.
  intros LC HB HL E. destruct (from_entropy_words U L LC B e HB HL) as [idxs [ws [HI [F [Fin [HN E']]]]]].
  rewrite E in E'. injection E' as ->. exists idxs, ws. repeat split; try assumption.
  - apply HI.
  - apply HI.
  - clear - F HI LC. destruct HI as [HI _]. revert HI. induction F; intros HI; constructor; inversion HI; subst.
    + rewrite <- (lc_word_of U L LC) by assumption. assumption.
    + auto.
  - eapply legal_words_of_entropy; eassumption.
Qed.
Print Assumptions C03_phrase_is_bip39.

(** The list of indices demanded by BIP-0039 is unique. *)
Theorem C03_indices_unique e a b : bip39_indices e a -> bip39_indices e b -> a = b.
Proof. intros [Fa Ea] [Fb Eb]. apply index_bits_inj; congruence. Qed.
Print Assumptions C03_indices_unique.

Example C03_case :
  bip39_indices ex_entropy [1019; 2015; 1790; 2039; 1983; 1533; 2031; 1919; 1019; 2015; 1790; 2040] /\
  split_whitespace ex_phrase =
    map (fun i => nth (N.to_nat i) (lang_words English) [])
      [1019; 2015; 1790; 2039; 1983; 1533; 2031; 1919; 1019; 2015; 1790; 2040].
Proof.
  split; [split|].
  - repeat constructor.
  - apply (list_eqb_eq Bool.eqb Bool.eqb_true_iff). vm_cast_no_check (eq_refl true).
  - apply (list_eqb_eq str_eqb str_eqb_eq). vm_cast_no_check (eq_refl true).
Qed.

(** ** C04 *)
Theorem C04_canonical U B b s m :
  ucd_std U -> valid_build B ->
  from_phrase U (language_of b) s = Ok m \/ from_normalized_phrase (language_of b) s = Ok m ->
  from_entropy B (language_of b) (entropy m) = Ok m.
Proof.
  intros HU HB H. pose proof (builtin_contract U b HU) as LC.
  destruct H as [H|H].
  - rewrite from_phrase_nfkd in H by apply HU.
    destruct (accepted U _ LC B _ m HB H) as [idxs [ws HH]]. apply HH.
  - destruct (accepted U _ LC B _ m HB H) as [idxs [ws HH]]. apply HH.
Qed.
Print Assumptions C04_canonical.

Theorem C04_phrase_function_of_entropy U b s t m m' :
  ucd_std U ->
  from_phrase U (language_of b) s = Ok m -> from_phrase U (language_of b) t = Ok m' ->
  entropy m = entropy m' -> phrase m = phrase m'.
Proof.
  intros HU H1 H2 E.
  pose proof (C04_canonical U b64 b s m HU b64_valid (or_introl H1)) as E1.
  pose proof (C04_canonical U b64 b t m' HU b64_valid (or_introl H2)) as E2.
  rewrite E in E1. rewrite E1 in E2. injection E2 as ->. reflexivity.
Qed.
Print Assumptions C04_phrase_function_of_entropy.

(** Ideographic spaces (U+3000) between Japanese words are accepted and replaced. *)
Example C04_case :
  let ws := split_whitespace
    (match from_entropy b64 (language_of BJapanese) ex_entropy with Ok m => phrase m | _ => [] end) in
  length ws = 12%nat /\
  from_phrase ucd15 (language_of BJapanese) (join [0x3000] ws)
  = from_entropy b64 (language_of BJapanese) ex_entropy.
Proof. split; [apply Nat.eqb_eq; vm_cast_no_check (eq_refl true)|run_m]. Qed.

(** ** C05 *)
Theorem C05_acceptance L s r :
  parse_spec (lang_index_of L) s r <-> from_normalized_phrase L s = parsed r.
Proof. exact (from_normalized_iff L s r). Qed.
Print Assumptions C05_acceptance.

(** Exactly one outcome exists for every string. *)
Theorem C05_outcome_unique L s : exists! r, parse_spec (lang_index_of L) s r.
Proof.
  destruct (from_normalized_outcome L s) as [r [H E]]. exists r. split; [exact H|].
  intros r' H'. apply from_normalized_iff in H'. apply parsed_inj. congruence.
Qed.
Print Assumptions C05_outcome_unique.

Example C05_cases :
  from_normalized_phrase English (lit "legal winner") = Err (BadWordCount 2) /\
  from_normalized_phrase English
    (lit "legal foo bar year wave sausage worth useful legal winner thank yellow")
    = Err (UnknownWord (lit "foo")) /\
  from_normalized_phrase English
    (lit "legal winner thank year wave sausage worth useful legal winner thank year")
    = Err InvalidChecksum /\
  from_normalized_phrase English
    (lit "  legal  winner thank year wave sausage worth useful legal winner thank yellow ") = Ok ex_mnemonic.
Proof. split; [run_m|]. split; [run_m|]. split; run_m. Qed.

(** ** C06 *)
Theorem C06_validate_agrees U L s :
  validate U L s = match from_phrase U L s with Ok _ => Ok tt | Err e => Err e | Panic => Panic end.
Proof. rewrite validate_agrees. destruct (from_phrase U L s); reflexivity. Qed.
Print Assumptions C06_validate_agrees.

Theorem C06_validate_agrees_any U L s :
  any_validate U L s = match any_from_phrase U L s with Ok _ => Ok tt | Err e => Err e | Panic => Panic end.
Proof. rewrite any_validate_agrees. destruct (any_from_phrase U L s); reflexivity. Qed.
Print Assumptions C06_validate_agrees_any.

Example C06_case :
  validate ucd15 English ex_phrase = Ok tt /\ validate ucd15 English (lit "zoo") = Err (BadWordCount 1).
Proof. split; run_u. Qed.

(** ** C07 *)
Theorem C07_nfkd_only U L s :
  ucd_ok U ->
  from_phrase U L s = from_phrase U L (nfkd U s) /\ from_phrase U L s = from_normalized_phrase L (nfkd U s).
Proof.
  intros HU. rewrite !from_phrase_nfkd by exact HU. rewrite nfkd_idem by exact HU. split; reflexivity.
Qed.
Print Assumptions C07_nfkd_only.

Theorem C07_words_only U L s t ws :
  ucd_ok U -> words_of (nfkd U s) ws -> words_of (nfkd U t) ws -> from_phrase U L s = from_phrase U L t.
Proof.
  intros HU Hs Ht. rewrite !from_phrase_nfkd by exact HU. eapply from_normalized_words; eassumption.
Qed.
Print Assumptions C07_words_only.

Example C07_case :
  let s := lit "caf" ++ [0xE9; 0xA0; 0xFB01] in        (* cafe-acute, no-break space, fi ligature *)
  let t := lit " caf" ++ [0x65; 0x301] ++ lit "  fi" in
  words_of (nfkd ucd15 s) [lit "caf" ++ [0x65; 0x301]; lit "fi"] /\
  words_of (nfkd ucd15 t) [lit "caf" ++ [0x65; 0x301]; lit "fi"] /\ s <> t.
Proof.
  cbv zeta. split; [|split; [|discriminate]].
  - match goal with |- words_of ?s ?w => replace w with (split_whitespace s) by (apply (list_eqb_eq str_eqb str_eqb_eq); vm_cast_no_check (eq_refl true)) end.
    apply words_of_split.
  - match goal with |- words_of ?s ?w => replace w with (split_whitespace s) by (apply (list_eqb_eq str_eqb str_eqb_eq); vm_cast_no_check (eq_refl true)) end.
    apply words_of_split.
Qed.

(** ** C08 *)
(** Mnemonics obtainable through the public constructors. *)
Inductive made (U : ucd) (B : build) (L : Language) : Mnemonic -> Prop :=
| made_entropy e m : 8 * N.of_nat (length e) < 2 ^ b_usize_bits B ->
    from_entropy B L e = Ok m -> made U B L m
| made_generate fill c m : (forall n, length (fill n) = n) ->
    generate B L fill c = Ok m -> made U B L m
| made_phrase s m : from_phrase U L s = Ok m -> made U B L m
| made_from_str s m : mnemonic_from_str U L s = Ok m -> made U B L m
| made_normalized s m : from_normalized_phrase L s = Ok m -> made U B L m.

Lemma made_inv U B L m : ucd_ok U -> lang_contract U L -> valid_build B -> made U B L m ->
  exists ws, Forall (fun w => In w (lang_words L)) ws /\ legal_word_count (length ws) /\
    phrase m = join [32] ws /\ legal_entropy_len (length (entropy m)) /\
    from_entropy B L (entropy m) = Ok m /\ from_normalized_phrase L (phrase m) = Ok m.
Proof.
  intros HU LC HB HM.
  assert (HE : forall e, legal_entropy_len (length e) -> from_entropy B L e = Ok m ->
    exists ws, Forall (fun w => In w (lang_words L)) ws /\ legal_word_count (length ws) /\
    phrase m = join [32] ws /\ legal_entropy_len (length (entropy m)) /\
    from_entropy B L (entropy m) = Ok m /\ from_normalized_phrase L (phrase m) = Ok m).
  { intros e HL E. destruct (from_entropy_words U L LC B e HB HL) as [idxs [ws [HI [F [Fin [HN E']]]]]].
    rewrite E in E'. injection E' as ->. exists ws. repeat split; try assumption.
    - eapply legal_words_of_entropy; eassumption.
    - eapply decode_encoded; eassumption. }
  assert (HP : forall s, from_normalized_phrase L s = Ok m -> exists e, legal_entropy_len (length e) /\ from_entropy B L e = Ok m).
  { intros s E. destruct (accepted U L LC B s m HB E) as [idxs [ws HH]]. exists (m_entropy m). tauto. }
  destruct HM as [e m HW E|fill c m Hf E|s m E|s m E|s m E].
  - apply (HE e); [|exact E]. eapply from_entropy_legal_of_ok; eassumption.
  - unfold generate, expect_ok in E. destruct c;
      match type of E with context[from_entropy B L ?e] =>
           destruct (from_entropy B L e) as [m'|er|] eqn:E'; [|discriminate|discriminate];
           injection E as <-; apply (HE e); [rewrite Hf; cbn; tauto|exact E'] end.
  - rewrite from_phrase_nfkd in E by exact HU. apply HP in E as [e [H1 H2]]. eauto.
  - unfold mnemonic_from_str in E. rewrite from_phrase_nfkd in E by exact HU. apply HP in E as [e [H1 H2]]. eauto.
  - apply HP in E as [e [H1 H2]]. eauto.
Qed.

Theorem C08_phrase_normalised U B b m :
  ucd_std U -> valid_build B -> made U B (language_of b) m ->
  nfkd U (phrase m) = phrase m /\
  exists ws, phrase m = join [32] ws /\ legal_word_count (length ws) /\
    Forall (fun w => In w (lang_words (language_of b)) /\ w <> [] /\ Forall (fun c => is_ws c = false) w) ws.
Proof.
  intros HU HB HM. pose proof (builtin_contract U b HU) as LC.
  destruct (made_inv U B _ m (std_ok U HU) LC HB HM) as [ws [Fin [HL [-> _]]]]. split.
  - apply (nfkd_join U _ LC); [apply HU|exact Fin].
  - exists ws. repeat split; try assumption. eapply Forall_impl; [|exact Fin].
    intros w Hw. split; [exact Hw|]. apply (lc_good U _ LC) in Hw. tauto.
Qed.
Print Assumptions C08_phrase_normalised.

Example C08_case : made ucd15 b64 (language_of BEnglish) ex_mnemonic.
Proof. apply made_phrase with (s := 32 :: ex_phrase). run_m. Qed.

(** ** C09 *)
Theorem C09_reparse U B b m :
  ucd_std U -> valid_build B -> made U B (language_of b) m ->
  from_phrase U (language_of b) (phrase m) = Ok m /\
  from_normalized_phrase (language_of b) (phrase m) = Ok m /\
  validate U (language_of b) (phrase m) = Ok tt.
Proof.
  intros HU HB HM. pose proof (builtin_contract U b HU) as LC.
  destruct (made_inv U B _ m (std_ok U HU) LC HB HM) as [ws [Fin [HL [EP [_ [_ EN]]]]]].
  assert (E : from_phrase U (language_of b) (phrase m) = Ok m).
  { rewrite from_phrase_nfkd by apply HU. rewrite EP, (nfkd_join U _ LC) by (assumption || apply HU).
    rewrite <- EP. exact EN. }
  split; [exact E|]. split; [exact EN|]. rewrite C06_validate_agrees, E. reflexivity.
Qed.
Print Assumptions C09_reparse.

Example C09_case : validate ucd15 (language_of BEnglish) (phrase ex_mnemonic) = Ok tt.
Proof. run_u. Qed.

(** ** C10 *)
Theorem C10_any_agrees U B b :
  as_any_language b = any_of (language_of b) /\
  (forall e, any_from_entropy B (as_any_language b) e
     = res_map (any_from_mnemonic (language_of b)) (from_entropy B (language_of b) e)) /\
  (forall s, any_from_phrase U (as_any_language b) s
     = res_map (any_from_mnemonic (language_of b)) (from_phrase U (language_of b) s)) /\
  (forall s, any_from_normalized_phrase (as_any_language b) s
     = res_map (any_from_mnemonic (language_of b)) (from_normalized_phrase (language_of b) s)) /\
  (forall s, any_validate U (as_any_language b) s = validate U (language_of b) s) /\
  (forall fill c, any_generate B (as_any_language b) fill c
     = res_map (any_from_mnemonic (language_of b)) (generate B (language_of b) fill c)) /\
  (forall m p, any_to_seed U (any_from_mnemonic (language_of b) m) p = to_seed U m p) /\
  (forall m, any_phrase (any_from_mnemonic (language_of b) m) = phrase m /\
             any_entropy (any_from_mnemonic (language_of b) m) = entropy m /\
             any_language (any_from_mnemonic (language_of b) m) = as_any_language b).
Proof.
  assert (HA : as_any_language b = any_of (language_of b)) by (destruct b; reflexivity).
  rewrite HA. generalize (language_of b). intros L. clear HA b.
  assert (HE : forall e, any_from_entropy B (any_of L) e
     = res_map (any_from_mnemonic L) (from_entropy B L e)).
  { intros e. unfold any_from_entropy, from_entropy, encode_entropy.
    destruct (encode_entropy_with B (any_of L) e); reflexivity. }
  assert (HN : forall s, any_from_normalized_phrase (any_of L) s
     = res_map (any_from_mnemonic L) (from_normalized_phrase L s)).
  { intros s. unfold any_from_normalized_phrase, from_normalized_phrase, decode_phrase.
    destruct (decode_phrase_with (any_of L) s BuildNormalizedPhrase) as [d|e|]; try reflexivity.
    cbn [bind]. destruct (dp_normalized d); reflexivity. }
  split; [reflexivity|]. split; [exact HE|]. split; [intros s; apply HN|]. split; [exact HN|].
  split; [reflexivity|]. split; [|split].
  - intros fill c. unfold any_generate, generate.
    destruct c; rewrite HE; match goal with |- context[from_entropy B ?l ?e] => destruct (from_entropy B l e) end; reflexivity.
  - intros m p. unfold any_to_seed, to_seed. reflexivity.
  - intros m. split; [reflexivity|]. split; reflexivity.
Qed.
Print Assumptions C10_any_agrees.

Example C10_case :
  res_map any_phrase (any_from_entropy b64 (as_any_language BEnglish) ex_entropy) = Ok ex_phrase.
Proof. run_s. Qed.

(** ** C11 *)
(** [word_of] may panic on indices >= 2048 (it does for the built-in lists); the
    hypothesis only asks for indices below 2048.  Parsing needs nothing. *)
Theorem C11_no_panic U B L :
  valid_build B ->
  (forall e, (forall i, i < 2048 -> lang_word_of L i <> None) ->
             8 * N.of_nat (length e) < 2 ^ b_usize_bits B \/ b_debug B = false ->
             from_entropy B L e <> Panic) /\
  (forall s, from_phrase U L s <> Panic) /\
  (forall s, from_normalized_phrase L s <> Panic) /\
  (forall s, validate U L s <> Panic).
Proof.
  intros HB. repeat split.
  - intros e HL HW. apply from_entropy_no_panic; assumption.
  - intros s. apply from_normalized_no_panic.
  - intros s. apply from_normalized_no_panic.
  - intros s. apply validate_no_panic.
Qed.
Print Assumptions C11_no_panic.

Example C11_case :
  (forall i, i < 2048 -> lang_word_of English i <> None) /\ lang_word_of English 2048 = None /\
  from_normalized_phrase silly (lit "a b c d e f g h i j k l") = Err InvalidChecksum.
Proof.
  split; [apply (lc_total ucd15); apply (builtin_contract ucd15 BEnglish ucd15_std)|].
  split; [vm_compute; reflexivity|run_m].
Qed.

(** ** C12 *)
Theorem C12_injective U B b e1 e2 m1 m2 :
  ucd_std U -> valid_build B ->
  legal_entropy_len (length e1) -> legal_entropy_len (length e2) ->
  from_entropy B (language_of b) e1 = Ok m1 -> from_entropy B (language_of b) e2 = Ok m2 ->
  phrase m1 = phrase m2 -> e1 = e2.
Proof.
  intros HU HB H1 H2 E1 E2 EP.
  destruct (C01_entropy_roundtrip U B b e1 HU HB H1) as [m1' [E1' [En1 P1]]].
  destruct (C01_entropy_roundtrip U B b e2 HU HB H2) as [m2' [E2' [En2 P2]]].
  rewrite E1 in E1'. rewrite E2 in E2'. injection E1' as <-. injection E2' as <-.
  rewrite EP, P2 in P1. injection P1 as ->. congruence.
Qed.
Print Assumptions C12_injective.

Example C12_case :
  res_map phrase (from_entropy b64 English (repeat x00 16)) <> res_map phrase (from_entropy b64 English (repeat x00 20)).
Proof. intros E. apply (f_equal (fun r => match r with Ok s => length s | _ => 0%nat end)) in E. revert E. vm_compute. discriminate. Qed.

(** ** C13 *)
Theorem C13_checksum_swap U L pre w w' i i' n m :
  lang_contract U L ->
  Forall (fun v => In v (lang_words L)) pre ->
  nth_error (lang_words L) (N.to_nat i) = Some w -> nth_error (lang_words L) (N.to_nat i') = Some w' ->
  length (pre ++ [w]) = n -> i <> i' ->
  i / 2 ^ N.of_nat (n / 3) = i' / 2 ^ N.of_nat (n / 3) ->
  from_normalized_phrase L (join [32] (pre ++ [w])) = Ok m ->
  from_normalized_phrase L (join [32] (pre ++ [w'])) = Err InvalidChecksum.
Proof.
  intros LC F Hi Hi'. apply (swap_checksum U L LC pre w w' i i' n m F).
  - apply (lc_index_of U L LC). exact Hi.
  - apply (lc_index_of U L LC). exact Hi'.
Qed.
Print Assumptions C13_checksum_swap.

Theorem C13_last_word_count U L pre n :
  lang_contract U L -> Forall (fun v => In v (lang_words L)) pre ->
  S (length pre) = n -> legal_word_count n ->
  N.of_nat (length (filter (fun w => is_ok (from_normalized_phrase L (join [32] (pre ++ [w])))) (lang_words L)))
  = 2 ^ N.of_nat (11 - n / 3).
Proof. intros LC. exact (count_last_words U L LC pre n). Qed.
Print Assumptions C13_last_word_count.

(** 2^7 = 128 of the 2048 words complete eleven words, 2^3 = 8 complete 23 words. *)
Example C13_case : legal_word_count 12 /\ legal_word_count 24 /\
  2 ^ N.of_nat (11 - 12 / 3) = 128 /\ 2 ^ N.of_nat (11 - 24 / 3) = 8 /\
  Forall (fun v => In v (lang_words English)) (repeat (lit "abandon") 11).
Proof.
  split; [cbn; tauto|]. split; [cbn; tauto|]. split; [reflexivity|]. split; [reflexivity|].
  assert (H : In (lit "abandon") (lang_words English)).
  { apply (nth_error_In _ 0). reflexivity. }
  cbn [repeat]. repeat (constructor; [exact H|]). constructor.
Qed.

(** ** C14 *)
Theorem C14_seed U m p :
  ucd_ok U ->
  is_pbkdf2_block (hmac_sha512 (utf8 (phrase m))) (utf8 (lit "mnemonic" ++ nfkd U p)) 2048 (to_seed U m p).
Proof.
  intros HU. unfold to_seed, to_seed_raw. rewrite salt_normalised by exact HU.
  apply pbkdf2_correct. unfold PBKDF2_ROUNDS. lia.
Qed.
Print Assumptions C14_seed.

Theorem C14_seed_nfkd U m p q : ucd_ok U -> nfkd U p = nfkd U q -> to_seed U m p = to_seed U m q.
Proof. intros HU E. unfold to_seed, to_seed_raw. rewrite !salt_normalised by exact HU. rewrite E. reflexivity. Qed.
Print Assumptions C14_seed_nfkd.

Theorem C14_seed_length U m p : length (to_seed U m p) = 64%nat.
Proof. apply pbkdf2_length64. Qed.
Print Assumptions C14_seed_length.

Example C14_case : ucd_ok ucd15 /\ nfkd ucd15 [0x212B] = nfkd ucd15 [0x41; 0x30A].
Proof. split; [exact ucd15_ok|run_str]. Qed.

(** ** C15 *)
Theorem C15_seed_origin U B b m1 m2 p :
  ucd_std U -> valid_build B -> made U B (language_of b) m1 -> made U B (language_of b) m2 ->
  entropy m1 = entropy m2 -> to_seed U m1 p = to_seed U m2 p.
Proof.
  intros HU HB H1 H2 E. pose proof (builtin_contract U b HU) as LC.
  destruct (made_inv U B _ m1 (std_ok U HU) LC HB H1) as [ws1 [_ [_ [_ [_ [E1 _]]]]]].
  destruct (made_inv U B _ m2 (std_ok U HU) LC HB H2) as [ws2 [_ [_ [_ [_ [E2 _]]]]]].
  rewrite E, E2 in E1. injection E1 as ->. reflexivity.
Qed.
Print Assumptions C15_seed_origin.

Example C15_case : exists m1 m2, made ucd15 b64 (language_of BEnglish) m1 /\ made ucd15 b64 (language_of BEnglish) m2 /\
  entropy m1 = entropy m2.
Proof.
  exists ex_mnemonic, ex_mnemonic. split; [exact C08_case|]. split; [|reflexivity].
  apply made_entropy with (e := ex_entropy); [reflexivity|run_m].
Qed.

(** ** C16 *)
Theorem C16_counts c :
  checksum_bit_length c * 32 = entropy_bit_length c /\
  total_bit_length c = entropy_bit_length c + checksum_bit_length c /\
  total_bit_length c = 11 * word_count c /\
  usize_from_count c = word_count c /\ count_try_from (usize_from_count c) = Ok c.
Proof. destruct c; repeat split. Qed.
Print Assumptions C16_counts.

Theorem C16_try_from n :
  ((exists c, count_try_from n = Ok c) <-> In n [12; 15; 18; 21; 24]) /\
  (forall c, count_try_from n = Ok c -> usize_from_count c = n) /\
  (~ In n [12; 15; 18; 21; 24] -> count_try_from n = Err (BadWordCount n)).
Proof.
  destruct (in_dec N.eq_dec n [12; 15; 18; 21; 24]) as [H|H].
  - cbn [In] in H. destruct H as [<-|[<-|[<-|[<-|[<-|[]]]]]].
    all: split; [split; [intros _; cbn; tauto|intros _; eexists; reflexivity]|].
    all: split; [intros c [= <-]; reflexivity|intros X; exfalso; apply X; cbn; tauto].
  - assert (E : count_try_from n = Err (BadWordCount n)).
    { unfold count_try_from, from_word_count. cbn [In] in H.
      destruct n as [|p]; [reflexivity|].
      repeat match goal with |- context[match ?x with _ => _ end] => destruct x; try reflexivity end;
      exfalso; apply H; tauto. }
    rewrite E. split; [split; [intros [c X]; discriminate|contradiction]|]. split; [discriminate|reflexivity].
Qed.
Print Assumptions C16_try_from.

Example C16_case : count_try_from 21 = Ok Words21 /\ count_try_from 13 = Err (BadWordCount 13).
Proof. split; reflexivity. Qed.

(** ** C17 *)
Theorem C17_generate U B b fill c :
  ucd_std U -> valid_build B -> (forall n, length (fill n) = n) ->
  exists m, generate B (language_of b) fill c = Ok m /\
    entropy m = fill (N.to_nat (entropy_bit_length c / 8)) /\
    N.of_nat (length (split_whitespace (phrase m))) = word_count c /\
    from_phrase U (language_of b) (phrase m) = Ok m.
Proof.
  intros HU HB Hf. pose proof (builtin_contract U b HU) as LC.
  assert (H : forall n, legal_entropy_len n -> exists m, from_entropy B (language_of b) (fill n) = Ok m /\
     entropy m = fill n /\ (4 * length (split_whitespace (phrase m)) = 3 * n)%nat /\
     from_phrase U (language_of b) (phrase m) = Ok m).
  { intros n Hn. assert (HL : legal_entropy_len (length (fill n))) by (rewrite Hf; exact Hn).
    destruct (from_entropy_words U _ LC B (fill n) HB HL) as [idxs [ws [HI [F [Fin [HN E]]]]]].
    eexists. split; [exact E|]. split; [reflexivity|]. cbn [phrase m_phrase]. split.
    - rewrite split_join by (apply (in_good U _ LC); exact Fin). rewrite HN, Hf. reflexivity.
    - rewrite from_phrase_nfkd by apply HU. rewrite (nfkd_join U _ LC) by (assumption || apply HU).
      eapply decode_encoded; eassumption. }
  unfold generate.
  destruct c;
    match goal with |- context[from_entropy B _ (fill ?n)] =>
      destruct (H n ltac:(cbn; tauto)) as [m [E1 [E2 [E3 E4]]]]; exists m; rewrite E1
    end; repeat split; try assumption; cbn [word_count]; lia.
Qed.
Print Assumptions C17_generate.

Example C17_case : forall n, length ((fun n => repeat x42 n) n) = n.
Proof. intros n. apply repeat_length. Qed.

(** ** C18 *)
Theorem C18_builtin_lists b : lang_contract ucd15 (language_of b).
Proof. exact (builtin_contract ucd15 b ucd15_std). Qed.
Print Assumptions C18_builtin_lists.

(** Each list is what the build script generates from the file in the repository. *)
Theorem C18_generated b :
  exists wl, generate_one (file_of b) = Ok wl /\ language_of b = wordlist_language wl.
Proof. exists (wordlist_of b). split; [apply generated|apply language_of_wordlist]. Qed.
Print Assumptions C18_generated.

Example C18_case : lang_index_of English (lit "zoo") = Some 2047 /\ lang_index_of English (lit "zoom") = None /\
  lang_index_of English (lit "ZOO") = None.
Proof. repeat split; vm_compute; reflexivity. Qed.

(** ** C19 *)
Theorem C19_build_script file wl :
  generate_one file = Ok wl <->
  exists ws, wordlist_file file ws /\ wl_words wl = ws /\
    wl_index wl = combine ws (map N.of_nat (seq 0 (length ws))).
Proof.
  rewrite generate_one_ok. split.
  - intros [ws [H ->]]. exists ws. split; [exact H|]. split; [reflexivity|]. cbn [wl_index].
    rewrite index_entries_spec. f_equal.
  - intros [ws [H [E1 E2]]]. exists ws. split; [exact H|]. destruct wl as [w i]. cbn in *. subst.
    rewrite index_entries_spec. reflexivity.
Qed.
Print Assumptions C19_build_script.

(** The map finds exactly the words, at their positions. *)
Theorem C19_index_map file wl w i :
  generate_one file = Ok wl ->
  (phf_get (wl_index wl) w = Some i <-> nth_error (wl_words wl) (N.to_nat i) = Some w).
Proof.
  intros H. apply generate_one_ok in H as [ws [[ps [_ [_ [_ [ND _]]]]] ->]]. cbn [wl_index wl_words].
  rewrite (phf_get_index ws 0 w i ND). rewrite N.sub_0_r. intuition lia.
Qed.
Print Assumptions C19_index_map.

Theorem C19_reports_errors file :
  (forall ws, ~ wordlist_file file ws) -> exists e, generate_one file = Err e.
Proof.
  intros H. destruct (generate_one file) as [wl|e|] eqn:E.
  - apply generate_one_ok in E as [ws [HW _]]. exfalso. eapply H. exact HW.
  - eauto.
  - exfalso. eapply generate_one_no_panic. exact E.
Qed.
Print Assumptions C19_reports_errors.

(** "Removing one CR" is not accurate: an LF-terminated line loses two. *)
Theorem C19_single_cr_refuted :
  exists line w, line_word (line, true) w /\ line = utf8 w ++ [x0d; x0d] /\ w <> [].
Proof.
  exists (utf8 (lit "abc") ++ [x0d; x0d]), (lit "abc"). split; [|split; [reflexivity|discriminate]].
  exists (utf8 (lit "abc") ++ [x0d]), (lit "abc" ++ [13]). repeat split.
  - left. reflexivity.
  - repeat constructor.
  - left. reflexivity.
Qed.
Print Assumptions C19_single_cr_refuted.

Example C19_case : exists ws, wordlist_file (file_of BEnglish) ws /\ nth_error ws 3 = Some (lit "about").
Proof.
  pose proof (generated BEnglish) as G. apply generate_one_ok in G as [ws [H E]]. exists ws.
  split; [exact H|]. apply (f_equal wl_words) in E. cbn [wl_words] in E. rewrite <- E. vm_compute. reflexivity.
Qed.

(** ** C20 *)
Theorem C20_bit_queue ops vs q :
  run_queue [] ops = Some (vs, q) ->
  exists a, run_acc ba_new ops = Ok (vs, a) /\ ba_bits a = N.of_nat (length q) /\
    forall n, can_take a n = (n <=? N.of_nat (length q)).
Proof.
  intros H. destruct (run_acc_queue ops ba_new [] vs q acc_rep_new H) as [a [E [_ R]]].
  exists a. split; [exact E|]. split; [exact R|]. intros n. unfold can_take. rewrite R. reflexivity.
Qed.
Print Assumptions C20_bit_queue.

(** The one exception: taking no bits from a full (64-bit) accumulator shifts by 64. *)
Theorem C20_take_zero_refuted :
  exists a, run_acc ba_new [Push 1 8; Push 2 56] = Ok ([], a) /\ can_take a 0 = true /\
    take_bits (E := err39) a 0 = Panic.
Proof. eexists. split; [vm_compute; reflexivity|]. split; reflexivity. Qed.
Print Assumptions C20_take_zero_refuted.

Example C20_case :
  run_queue [] [Push 0xAB 8; Push 0x7FF 11; Take 11; Push 1 3; Take 4; Take 1] = Some ([1375; 15; 1], bits_msb 6 0x39).
Proof. vm_compute. reflexivity. Qed.

(** ** C21 *)
Theorem C21_accessors m :
  mnemonic_display m = phrase m /\ mnemonic_debug m = phrase m /\ mnemonic_as_ref m = phrase m /\
  fst (into_phrase m) = phrase m /\ fst (into_entropy m) = entropy m /\
  entropy (snd (into_phrase m)) = entropy m /\ phrase (snd (into_entropy m)) = phrase m /\
  phrase (snd (into_phrase m)) = [] /\ entropy (snd (into_entropy m)) = [].
Proof. repeat split. Qed.
Print Assumptions C21_accessors.

Theorem C21_accessors_any m :
  any_display m = any_phrase m /\ any_debug m = any_phrase m /\ any_as_ref m = any_phrase m /\
  fst (any_into_phrase m) = any_phrase m /\ fst (any_into_entropy m) = any_entropy m /\
  any_entropy (snd (any_into_phrase m)) = any_entropy m /\
  any_phrase (snd (any_into_entropy m)) = any_phrase m /\
  any_language (snd (any_into_phrase m)) = any_language m /\
  any_language (snd (any_into_entropy m)) = any_language m /\
  any_phrase (snd (any_into_phrase m)) = [] /\ any_entropy (snd (any_into_entropy m)) = [].
Proof. repeat split. Qed.
Print Assumptions C21_accessors_any.

Example C21_case : mnemonic_display ex_mnemonic = ex_phrase.
Proof. reflexivity. Qed.
