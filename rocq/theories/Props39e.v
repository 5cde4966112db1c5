(** Property theorems for the bip0039 crate: the edges of C02, C07 and C20, and what error
    messages tell apart (C69). *)
From Verif Require Import Base Sha2 Str StrProofs Unicode UnicodeTables UnicodeProofs BitAcc Language39
  BuildScript39 Builtin39 Mnemonic39 Spec39 BitsProofs LangSpec39 LangProofs MnemonicProofs
  QueueSpec39 ExtraProofs39 Props39 PathSpec32 PathProofs32.

(** ** C02, entropy whose bit count does not fit [usize] *)
Theorem C02_overflow B L e :
  valid_build B -> 2 ^ b_usize_bits B <= 8 * N.of_nat (length e) ->
  let n := (8 * N.of_nat (length e)) mod 2 ^ b_usize_bits B in
  (b_debug B = true -> from_entropy B L e = Panic) /\
  (b_debug B = false -> (forall i, i < 2048 -> lang_word_of L i <> None) ->
   (In n [128; 160; 192; 224; 256] -> exists m, from_entropy B L e = Ok m /\ entropy m = e) /\
   (~ In n [128; 160; 192; 224; 256] -> from_entropy B L e = Err (BadEntropyBitCount n))).
Proof.
  intros HB HW n.
  assert (M : mul_usize B (N.of_nat (length e)) BITS_PER_BYTE = if b_debug B then Panic else Ok n).
  { unfold mul_usize, BITS_PER_BYTE, n. rewrite (N.mul_comm (N.of_nat (length e)) 8).
    rewrite (proj2 (N.ltb_ge _ _) HW). reflexivity. }
  split.
  - intros D. rewrite D in M. unfold from_entropy, encode_entropy, encode_entropy_with. rewrite M. reflexivity.
  - intros D HL. rewrite D in M. split.
    + intros HI. destruct (from_entropy_wrapped B L e D HW HI HL) as [m E]. exists m. split; [exact E|].
      unfold from_entropy in E. destruct (encode_entropy B L e); [|discriminate..]. injection E as <-. reflexivity.
    + intros HI. unfold from_entropy, encode_entropy, encode_entropy_with. rewrite M. cbn [bind].
      assert (K : from_key_size n = Err (BadEntropyBitCount n)).
      { clear M. revert HI. generalize n. clear. intros n HI. unfold from_key_size.
        repeat (destruct n as [|n]; try reflexivity; try (exfalso; apply HI; cbn; tauto);
                match goal with p : positive |- _ => destruct p end; try reflexivity; try (exfalso; apply HI; cbn; tauto)).
        all: repeat (match goal with p : positive |- _ => destruct p; try reflexivity; try (exfalso; apply HI; cbn; tauto) end). }
      rewrite K. reflexivity.
Qed.
Print Assumptions C02_overflow.

Example C02_overflow_case :
  let e := repeat x00 (N.to_nat (2 ^ 29 + 17)) in
  2 ^ 32 <= 8 * N.of_nat (length e) /\ (8 * N.of_nat (length e)) mod 2 ^ 32 = 136.
Proof. intros e. unfold e. rewrite repeat_length, N2Nat.id. clear e. split; [discriminate|reflexivity]. Qed.

(** ** C07, the separators *)
(** PropList.txt, White_Space. *)
Definition white_space : list N :=
  [0x9; 0xA; 0xB; 0xC; 0xD; 0x20; 0x85; 0xA0; 0x1680; 0x2000; 0x2001; 0x2002; 0x2003; 0x2004; 0x2005; 0x2006;
   0x2007; 0x2008; 0x2009; 0x200A; 0x2028; 0x2029; 0x202F; 0x205F; 0x3000].
Lemma is_ws_iff c : is_ws c = true <-> In c white_space.
Proof.
  split.
  - unfold is_ws. intros H. repeat (apply orb_true_iff in H as [H|H]);
      try (apply N.eqb_eq in H; subst c; cbn; tauto).
    + apply andb_true_iff in H as [A B]. apply N.leb_le in A, B.
      assert (Q : c = 9 \/ c = 10 \/ c = 11 \/ c = 12 \/ c = 13) by lia.
      repeat (destruct Q as [->|Q]; [cbn; tauto|]). subst c. cbn. tauto.
    + apply andb_true_iff in H as [A B]. apply N.leb_le in A, B.
      assert (Q : c = 0x2000 \/ c = 0x2001 \/ c = 0x2002 \/ c = 0x2003 \/ c = 0x2004 \/ c = 0x2005 \/
                  c = 0x2006 \/ c = 0x2007 \/ c = 0x2008 \/ c = 0x2009 \/ c = 0x200A) by lia.
      repeat (destruct Q as [->|Q]; [cbn; tauto|]). subst c. cbn. tauto.
  - cbn [In white_space]. intros H. repeat (destruct H as [<-|H]; [reflexivity|]). destruct H.
Qed.
Lemma split_acc_sep c d s : is_ws c = true -> is_ws d = true -> forall cur t,
  split_acc is_ws cur (s ++ c :: t) = split_acc is_ws cur (s ++ d :: t).
Proof.
  intros Hc Hd. induction s as [|x s IH]; intros cur t; cbn [app split_acc].
  - rewrite Hc, Hd. reflexivity.
  - destruct (is_ws x); [f_equal|]; apply IH.
Qed.
(** Any white space separates words like a space does; any other character belongs to a word. *)
Theorem C07_separators L c s t :
  (In c white_space -> from_normalized_phrase L (s ++ c :: t) = from_normalized_phrase L (s ++ 32 :: t)) /\
  (~ In c white_space -> split_whitespace [c] = [[c]]).
Proof.
  split.
  - intros H. apply is_ws_iff in H.
    apply (from_normalized_words L _ _ (split_whitespace (s ++ 32 :: t))); [|apply words_of_split].
    assert (E : split_whitespace (s ++ 32 :: t) = split_whitespace (s ++ c :: t)).
    { unfold split_whitespace, split_on. rewrite (split_acc_sep 32 c s eq_refl H). reflexivity. }
    rewrite E. apply words_of_split.
  - intros H. rewrite <- is_ws_iff in H. unfold split_whitespace, split_on. cbn [split_acc].
    destruct (is_ws c); [congruence|]. reflexivity.
Qed.
Print Assumptions C07_separators.

Example C07_separators_case : In 0x3000 white_space /\ ~ In 0x200B white_space.
Proof. split; [cbn; tauto|]. cbn [In white_space]. lia. Qed.

(** ** C20, outside the contract *)
(** Exactly the operations on a queue of at most 64 bits that fail (with debug assertions
    and overflow checks): pushing more than 56 bits at once, taking more than is there,
    and on a full queue taking none or all. *)
Theorem C20_panics ops vs q n v :
  run_queue [] ops = Some (vs, q) ->
  exists a, run_acc ba_new ops = Ok (vs, a) /\
    (push_bits (E := err39) a v n = Panic <-> 56 < n) /\
    (take_bits (E := err39) a n = Panic <->
     N.of_nat (length q) < n \/ (length q = 64%nat /\ (n = 0 \/ n = 64))).
Proof.
  intros H. destruct (run_acc_queue ops ba_new [] vs q acc_rep_new H) as [a [E [_ R]]].
  assert (LQ : (length q <= 64)%nat).
  { clear E R a. assert (G : forall ops q0 vs q, (length q0 <= 64)%nat -> run_queue q0 ops = Some (vs, q) -> (length q <= 64)%nat).
    { clear. induction ops as [|[w k|k] ops IH]; intros q0 vs q L E; cbn [run_queue] in E.
      - injection E as _ <-. exact L.
      - destruct ((k <=? 56) && (length q0 + k <=? 64))%nat eqn:G; [|discriminate].
        apply andb_true_iff in G as [_ G]. apply Nat.leb_le in G. apply IH in E; [exact E|].
        rewrite app_length, bits_msb_length. exact G.
      - destruct ((k <=? 56) && (k <=? length q0) && (length q0 - k <? 64))%nat; [|discriminate].
        destruct (run_queue (skipn k q0) ops) as [[vs' q']|] eqn:E'; [|discriminate]. injection E as _ <-.
        apply IH in E'; [exact E'|]. rewrite skipn_length. lia. }
    apply (G ops [] vs q); [cbn; lia|exact H]. }
  exists a. split; [exact E|]. unfold push_bits, take_bits. rewrite R. split.
  - destruct (N.ltb_spec 56 n) as [Hn|Hn]; [tauto|]. cbv zeta.
    destruct (N.leb_spec (2 ^ 32) (N.of_nat (length q) + n)) as [Hb|Hb]; [lia|]. split; [discriminate|lia].
  - destruct (N.ltb_spec (N.of_nat (length q)) n) as [Hn|Hn]; [tauto|]. cbv zeta.
    destruct (N.leb_spec 64 (N.of_nat (length q) - n)) as [Hb|Hb]; [cbn [orb]; split; [lia|reflexivity]|].
    destruct (N.leb_spec 64 n) as [Hc|Hc]; cbn [orb]; [split; [lia|reflexivity]|]. split; [discriminate|lia].
Qed.
Print Assumptions C20_panics.

Example C20_panics_case : run_queue [] [Push 1 8; Push 2 56] = Some ([], bits_msb 8 1 ++ bits_msb 56 2) /\
  length (bits_msb 8 1 ++ bits_msb 56 2) = 64%nat.
Proof. split; reflexivity. Qed.

(** ** C21, conversion to [AnyMnemonic] *)
Theorem C21_converted U L m :
  let a := any_from_mnemonic L m in
  any_display a = mnemonic_display m /\ any_debug a = mnemonic_debug m /\ any_as_ref a = mnemonic_as_ref m /\
  any_phrase a = phrase m /\ fst (any_into_phrase a) = fst (into_phrase m) /\
  any_entropy a = entropy m /\ fst (any_into_entropy a) = fst (into_entropy m) /\
  (forall i, any_word_of (any_language a) i = lang_word_of L i) /\
  (forall w, any_index_of (any_language a) w = lang_index_of L w) /\
  (forall pass, any_to_seed U a pass = to_seed U m pass) /\
  (from_phrase U L (phrase m) = Ok m -> any_from_phrase U (any_language a) (any_phrase a) = Ok a).
Proof.
  intros a. unfold a. do 9 (split; [reflexivity|]). split; [reflexivity|].
  unfold any_from_phrase, any_from_normalized_phrase, from_phrase, from_normalized_phrase, decode_phrase,
    any_language, any_phrase, any_from_mnemonic, phrase.
  cbn [am_language am_phrase]. generalize (normalize_utf8 U (m_phrase m)). intros s H.
  destruct (decode_phrase_with (any_of L) s BuildNormalizedPhrase) as [d|e|]; try discriminate.
  cbn [bind] in *. destruct (dp_normalized d); [|discriminate]. injection H as <-. reflexivity.
Qed.
Print Assumptions C21_converted.

Example C21_converted_case :
  from_phrase ucd15 (language_of BEnglish) (phrase ex_mnemonic) = Ok ex_mnemonic.
Proof. exact (proj2 (proj2 (proj2 (proj2 C01_case)))). Qed.

(** ** C69 *)
Lemma dec_inj m n : dec m = dec n -> m = n.
Proof.
  intros E. destruct (dec_spec m) as (_ & _ & A). destruct (dec_spec n) as (_ & _ & B). congruence.
Qed.
Lemma digits_split a b s t c d : Forall is_digit a -> Forall is_digit b -> ~ is_digit c -> ~ is_digit d ->
  a ++ c :: s = b ++ d :: t -> a = b /\ c :: s = d :: t.
Proof.
  revert b. induction a as [|x a IH]; intros [|y b] Fa Fb Hc Hd E; cbn [app] in *.
  - auto.
  - injection E as -> _. inversion Fb. contradiction.
  - injection E as -> _. inversion Fa. contradiction.
  - injection E as -> E. inversion Fa; inversion Fb; subst. destruct (IH b) as [-> H]; auto.
Qed.

(** C69: the message of an error tells which error it is, with its word or count; the
    display of a [Count] tells which one it is. *)
Theorem C69_messages a b : err39_display a = err39_display b -> a = b.
Proof.
  destruct a as [m|m|v|]; destruct b as [n|n|w|]; cbn [err39_display]; try discriminate.
  - intros E. apply app_inv_head in E. apply dec_inj in E. congruence.
  - intros E. apply app_inv_head in E. apply app_inv_tail in E. apply dec_inj in E. congruence.
  - intros E. apply app_inv_head in E. congruence.
  - reflexivity.
Qed.
Theorem C69_counts c d : count_display c = count_display d -> c = d.
Proof. destruct c, d; (reflexivity || discriminate). Qed.
Print Assumptions C69_messages.
Print Assumptions C69_counts.

Example C69_case : err39_display (BadWordCount 13) <> err39_display (BadEntropyBitCount 13) /\
  err39_display (UnknownWord (lit "zzz")) = lit "mnemonic contains an unknown word: zzz".
Proof. split; [discriminate|reflexivity]. Qed.
