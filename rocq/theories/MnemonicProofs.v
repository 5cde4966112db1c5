(** Facts about the public bip0039 API, assembled from the encoder and decoder
    lemmas. *)
From Verif Require Import Base Sha2 Str StrProofs Unicode UnicodeProofs BitAcc Language39 Mnemonic39
  Spec39 BitsProofs EncProofs DecProofs LangSpec39.

(** 32- and 64-bit targets. *)
Definition valid_build (B : build) : Prop := b_usize_bits B = 32 \/ b_usize_bits B = 64.

Lemma valid_build_bits B n : valid_build B -> (n <= 32)%nat -> N.of_nat n * 8 < 2 ^ b_usize_bits B.
Proof.
  intros [->| ->] H.
  - change (2 ^ 32) with 4294967296. lia.
  - change (2 ^ 64) with 18446744073709551616. lia.
Qed.

Lemma legal_le n : legal_entropy_len n -> (n <= 32)%nat.
Proof. unfold legal_entropy_len. cbn. lia. Qed.

(** The result [from_normalized_phrase] must return for each outcome. *)
Definition parsed (r : parse_result) : res err39 Mnemonic :=
  match r with
  | PBadCount n => Err (BadWordCount (N.of_nat n))
  | PUnknown w => Err (UnknownWord w)
  | PBadChecksum => Err InvalidChecksum
  | POk e p => Ok {| m_phrase := p; m_entropy := e |}
  end.

Lemma parsed_inj r1 r2 : parsed r1 = parsed r2 -> r1 = r2.
Proof. destruct r1, r2; cbn; intros E; try discriminate; try congruence. injection E as E. f_equal. lia. Qed.

Lemma from_normalized_outcome L s :
  exists r, parse_spec (lang_index_of L) s r /\ from_normalized_phrase L s = parsed r.
Proof.
  destruct (decode_phrase_outcome (any_of L) s BuildNormalizedPhrase) as [r [H E]].
  exists r. split; [exact H|]. unfold from_normalized_phrase, decode_phrase. rewrite E.
  destruct r; reflexivity.
Qed.

Theorem from_normalized_iff L s r :
  parse_spec (lang_index_of L) s r <-> from_normalized_phrase L s = parsed r.
Proof.
  destruct (from_normalized_outcome L s) as [r0 [H E]]. split.
  - intros H'. rewrite E. f_equal. eapply parse_spec_fun; eassumption.
  - rewrite E. intros E'. apply parsed_inj in E'. subst. exact H.
Qed.

Lemma from_phrase_nfkd U L s : ucd_ok U -> from_phrase U L s = from_normalized_phrase L (nfkd U s).
Proof. intros OK. unfold from_phrase. rewrite normalize_is_nfkd by exact OK. reflexivity. Qed.

Lemma validate_agrees U L s : validate U L s = res_map (fun _ => tt) (from_phrase U L s).
Proof.
  unfold validate, from_phrase, from_normalized_phrase, decode_phrase.
  destruct (decode_phrase_outcome (any_of L) (normalize_utf8 U s) ValidateOnly) as [r1 [H1 ->]].
  destruct (decode_phrase_outcome (any_of L) (normalize_utf8 U s) BuildNormalizedPhrase) as [r2 [H2 ->]].
  rewrite (parse_spec_fun _ _ _ _ H1 H2). destruct r2; reflexivity.
Qed.

Lemma any_validate_agrees U L s : any_validate U L s = res_map (fun _ => tt) (any_from_phrase U L s).
Proof.
  unfold any_validate, any_from_phrase, any_from_normalized_phrase.
  destruct (decode_phrase_outcome L (normalize_utf8 U s) ValidateOnly) as [r1 [H1 ->]].
  destruct (decode_phrase_outcome L (normalize_utf8 U s) BuildNormalizedPhrase) as [r2 [H2 ->]].
  rewrite (parse_spec_fun _ _ _ _ H1 H2). destruct r2; reflexivity.
Qed.

(** Outcomes only depend on the words. *)
Lemma parse_spec_words f s t ws r : words_of s ws -> words_of t ws -> parse_spec f s r -> parse_spec f t r.
Proof.
  intros Ws Wt H.
  destruct H as [ws' W L|pre w post W L F N|ws' idxs e cs W L F B C X|ws' idxs e W L F B E];
    pose proof (words_of_fun _ _ _ Ws W) as EW; subst ws.
  - apply ps_count; assumption.
  - eapply ps_unknown; eassumption.
  - eapply ps_checksum; eassumption.
  - eapply ps_ok; eassumption.
Qed.

Lemma from_normalized_words L s t ws : words_of s ws -> words_of t ws ->
  from_normalized_phrase L s = from_normalized_phrase L t.
Proof.
  intros Ws Wt. destruct (from_normalized_outcome L s) as [r [H ->]]. symmetry.
  apply from_normalized_iff. exact (parse_spec_words _ s t ws _ Ws Wt H).
Qed.

(** ** Encoding *)
Lemma any_word_of_of L i : any_word_of (any_of L) i = lang_word_of L i.
Proof. reflexivity. Qed.

Lemma from_entropy_ok B L e : valid_build B -> legal_entropy_len (length e) ->
  (forall i, i < 2048 -> lang_word_of L i <> None) ->
  exists idxs ws, bip39_indices e idxs /\ Forall2 (fun i w => lang_word_of L i = Some w) idxs ws /\
    from_entropy B L e = Ok {| m_phrase := fold_left push_word ws []; m_entropy := e |}.
Proof.
  intros HB HL HW.
  destruct (encode_legal B (any_of L) e HL (valid_build_bits B _ HB (legal_le _ HL))) as [idxs [HI E]].
  destruct (words_exist (any_of L) idxs HW (proj1 HI)) as [ws F].
  exists idxs, ws. split; [exact HI|]. split; [exact F|].
  unfold from_entropy, encode_entropy. rewrite E, (push_all_words _ _ _ F). reflexivity.
Qed.

Lemma from_entropy_illegal B L e : ~ legal_entropy_len (length e) ->
  8 * N.of_nat (length e) < 2 ^ b_usize_bits B ->
  from_entropy B L e = Err (BadEntropyBitCount (8 * N.of_nat (length e))).
Proof.
  intros H1 H2. unfold from_entropy, encode_entropy. rewrite encode_illegal by (try assumption; lia).
  reflexivity.
Qed.

(** Length bookkeeping. *)
Lemma bip39_bits_length e : legal_entropy_len (length e) ->
  (33 * length e = 4 * length (bip39_bits e))%nat /\ (8 * length e = 32 * length (checksum_bits e))%nat.
Proof.
  unfold bip39_bits, checksum_bits. rewrite app_length, firstn_length, !bytes_bits_length, sha256_length.
  unfold legal_entropy_len. cbn [In].
  intros [H|[H|[H|[H|[H|[]]]]]]; rewrite <- H.
  - change (16 * 8 / 32)%nat with 4%nat. lia.
  - change (20 * 8 / 32)%nat with 5%nat. lia.
  - change (24 * 8 / 32)%nat with 6%nat. lia.
  - change (28 * 8 / 32)%nat with 7%nat. lia.
  - change (32 * 8 / 32)%nat with 8%nat. lia.
Qed.

Lemma indices_length e idxs : legal_entropy_len (length e) -> index_bits idxs = bip39_bits e ->
  (4 * length idxs = 3 * length e)%nat.
Proof.
  intros HL E. apply (f_equal (@length bool)) in E. rewrite index_bits_length in E.
  pose proof (bip39_bits_length e HL). lia.
Qed.

Lemma legal_words_of_entropy n m : legal_entropy_len n -> (4 * m = 3 * n)%nat -> legal_word_count m.
Proof. unfold legal_entropy_len, legal_word_count. cbn. lia. Qed.

Lemma legal_entropy_of_words n m : legal_word_count n -> (3 * m = 4 * n)%nat -> legal_entropy_len m.
Proof. unfold legal_entropy_len, legal_word_count. cbn. lia. Qed.

(** ** Languages that meet the contract *)
Section Contract.
Variable U : ucd.
Variable L : Language.
Hypothesis LC : lang_contract U L.

Lemma lc_total i : i < 2048 -> lang_word_of L i <> None.
Proof.
  intros H. rewrite (lc_word_of U L LC) by exact H. intros E. apply nth_error_None in E.
  pose proof (lc_count U L LC). lia.
Qed.

Lemma lc_word_index i w : i < 2048 -> lang_word_of L i = Some w -> lang_index_of L w = Some i.
Proof. intros H E. apply (lc_index_of U L LC). rewrite <- E. symmetry. apply (lc_word_of U L LC). exact H. Qed.

Lemma lc_index_bound w i : lang_index_of L w = Some i -> i < 2048.
Proof.
  intros E. apply (lc_index_of U L LC) in E. assert (H : nth_error (lang_words L) (N.to_nat i) <> None) by congruence.
  apply nth_error_Some in H. pose proof (lc_count U L LC). lia.
Qed.

Lemma lc_index_word w i : lang_index_of L w = Some i -> lang_word_of L i = Some w.
Proof.
  intros E. rewrite (lc_word_of U L LC) by (eapply lc_index_bound; exact E).
  apply (lc_index_of U L LC). exact E.
Qed.

Lemma lc_word_in i w : i < 2048 -> lang_word_of L i = Some w -> In w (lang_words L).
Proof. intros H E. rewrite (lc_word_of U L LC) in E by exact H. eapply nth_error_In. exact E. Qed.

Lemma lc_index_in w i : lang_index_of L w = Some i -> In w (lang_words L).
Proof. intros E. apply (lc_index_of U L LC) in E. eapply nth_error_In. exact E. Qed.

Lemma lc_in_index w : In w (lang_words L) -> exists i, lang_index_of L w = Some i.
Proof.
  intros H. apply In_nth_error in H as [n E]. exists (N.of_nat n). apply (lc_index_of U L LC).
  rewrite Nat2N.id. exact E.
Qed.

Lemma lc_good w : In w (lang_words L) -> w <> [] /\ no_ws w /\ nfkd U w = w.
Proof. intros H. pose proof (lc_words U L LC) as F. rewrite Forall_forall in F. apply F. exact H. Qed.

Lemma words_in_of_word_of idxs ws : Forall (fun i => i < 2048) idxs ->
  Forall2 (fun i w => lang_word_of L i = Some w) idxs ws -> Forall (fun w => In w (lang_words L)) ws.
Proof.
  intros F F2. revert F. induction F2 as [|i w idxs ws H F2 IH]; intros F; constructor; inversion F; subst.
  - eapply lc_word_in; eassumption.
  - apply IH. assumption.
Qed.

Lemma index_of_words idxs ws : Forall (fun i => i < 2048) idxs ->
  Forall2 (fun i w => lang_word_of L i = Some w) idxs ws ->
  Forall2 (fun w i => lang_index_of L w = Some i) ws idxs.
Proof.
  intros F F2. revert F. induction F2 as [|i w idxs ws H F2 IH]; intros F; constructor; inversion F; subst.
  - apply lc_word_index; assumption.
  - apply IH. assumption.
Qed.

Lemma words_of_index idxs ws :
  Forall2 (fun w i => lang_index_of L w = Some i) ws idxs ->
  Forall (fun i => i < 2048) idxs /\ Forall2 (fun i w => lang_word_of L i = Some w) idxs ws /\
  Forall (fun w => In w (lang_words L)) ws.
Proof.
  induction 1 as [|w i ws idxs H F [IH1 [IH2 IH3]]]; [repeat split; constructor|].
  repeat split; constructor; try assumption.
  - eapply lc_index_bound; exact H.
  - apply lc_index_word. exact H.
  - eapply lc_index_in; exact H.
Qed.

Lemma in_good ws : Forall (fun w => In w (lang_words L)) ws -> Forall (fun w => w <> [] /\ no_ws w) ws.
Proof. apply Forall_impl. intros w H. apply lc_good in H. tauto. Qed.

Lemma in_nonempty ws : Forall (fun w => In w (lang_words L)) ws -> Forall (fun w => w <> []) ws.
Proof. apply Forall_impl. intros w H. apply lc_good in H. tauto. Qed.

(** The encoder, for contract languages. *)
Lemma from_entropy_words B e : valid_build B -> legal_entropy_len (length e) ->
  exists idxs ws, bip39_indices e idxs /\ Forall2 (fun i w => lang_word_of L i = Some w) idxs ws /\
    Forall (fun w => In w (lang_words L)) ws /\ (4 * length ws = 3 * length e)%nat /\
    from_entropy B L e = Ok {| m_phrase := join [32] ws; m_entropy := e |}.
Proof.
  intros HB HL. destruct (from_entropy_ok B L e HB HL lc_total) as [idxs [ws [HI [F E]]]].
  pose proof (words_in_of_word_of _ _ (proj1 HI) F) as Fin.
  exists idxs, ws. split; [exact HI|]. split; [exact F|]. split; [exact Fin|]. split.
  - rewrite <- (Forall2_len _ _ _ F). eapply indices_length; [exact HL|apply HI].
  - rewrite E, fold_push_word_nil by (apply in_nonempty; exact Fin). reflexivity.
Qed.

Lemma from_entropy_legal_of_ok B e m : valid_build B -> 8 * N.of_nat (length e) < 2 ^ b_usize_bits B ->
  from_entropy B L e = Ok m -> legal_entropy_len (length e).
Proof.
  intros HB HW E.
  destruct (in_dec Nat.eq_dec (length e) [16; 20; 24; 28; 32]%nat) as [H|H]; [exact H|].
  rewrite from_entropy_illegal in E; [discriminate|exact H|exact HW].
Qed.

(** Encoding then decoding. *)
Lemma decode_encoded idxs ws e : legal_entropy_len (length e) -> bip39_indices e idxs ->
  Forall2 (fun i w => lang_word_of L i = Some w) idxs ws ->
  from_normalized_phrase L (join [32] ws) = Ok {| m_phrase := join [32] ws; m_entropy := e |}.
Proof.
  intros HL HI F. pose proof (words_in_of_word_of _ _ (proj1 HI) F) as Fin.
  pose proof (indices_length e idxs HL (proj2 HI)) as HN. pose proof (Forall2_len _ _ _ F) as HN2.
  change (Ok _) with (parsed (POk e (join [32] ws))). apply from_normalized_iff.
  eapply ps_ok.
  - apply words_of_join. apply in_good. exact Fin.
  - eapply legal_words_of_entropy; [exact HL|]. rewrite <- HN2. exact HN.
  - apply index_of_words; [apply HI|exact F].
  - apply HI.
  - rewrite <- HN2. lia.
Qed.

(** The NFKD form of a phrase of list words is itself. *)
Lemma nfkd_join ws : ucd_ok U -> Forall (fun w => In w (lang_words L)) ws ->
  nfkd U (join [32] ws) = join [32] ws.
Proof.
  intros OK. induction ws as [|w ws IH]; intros F; [reflexivity|].
  inversion F as [|? ? Hw F']; subst. apply lc_good in Hw as [_ [_ Hw]]. destruct ws as [|v ws]; [exact Hw|].
  rewrite join_cons. cbn [app]. rewrite nfkd_split by (assumption || lia). rewrite Hw, IH by exact F'. reflexivity.
Qed.

(** What an accepted string looks like. *)
Lemma accepted B s m : valid_build B -> from_normalized_phrase L s = Ok m ->
  exists idxs ws, words_of s ws /\ legal_word_count (length ws) /\ bip39_indices (m_entropy m) idxs /\
    Forall2 (fun i w => lang_word_of L i = Some w) idxs ws /\ Forall (fun w => In w (lang_words L)) ws /\
    m_phrase m = join [32] ws /\ legal_entropy_len (length (m_entropy m)) /\
    from_entropy B L (m_entropy m) = Ok m.
Proof.
  intros HB E. destruct (from_normalized_outcome L s) as [r [H E']]. rewrite E in E'.
  destruct r as [n|w| |e p]; try discriminate. injection E' as ->. cbn [m_entropy m_phrase].
  inversion H as [| | |ws idxs e' W HLW F BI EN]; subst.
  apply words_of_index in F as [Fb [F Fin]]. exists idxs, ws.
  assert (HL : legal_entropy_len (length e)) by (eapply legal_entropy_of_words; eassumption).
  repeat split; try assumption.
  destruct (from_entropy_words B e HB HL) as [idxs' [ws' [[Fb' BI'] [F' [_ [_ E'']]]]]].
  assert (idxs' = idxs) by (apply index_bits_inj; congruence). subst idxs'.
  assert (ws' = ws).
  { clear - F F'. revert ws' F'. induction F; intros ws' F'; inversion F'; subst; [reflexivity|].
    f_equal; [congruence|auto]. }
  subst ws'. exact E''.
Qed.

End Contract.
