(** Proofs that [decode_phrase_with] of the text phrase.rs does what the model says: the loop over the words and
    the whole. *)
From Coq Require Import Lia.
From Verif Require Import Base Str Sha2 Language39 BitAcc Mnemonic39 MnemonicProofs RustSyntax RustEval RustSource RustExec SourceProofs SourceProofs2 SourceProofs3.
From Coq Require Import List.
Import ListNotations.
Local Open Scope string_scope.
Local Open Scope N_scope.
Local Open Scope list_scope.

Definition opt_value (o : option str) : value := match o with Some s => some (VStr s) | None => none end.
Definition mode_name (m : DecodeMode) : string :=
  match m with ValidateOnly => "ValidateOnly" | BuildNormalizedPhrase => "BuildNormalizedPhrase" end.
Notation mode_value m := (VCon "DecodeMode" (mode_name m) []).
Definition decoded_value (p : DecodedPhrase) : value :=
  VRec "DecodedPhrase" [("entropy", VBytes (dp_entropy p)); ("normalized_phrase", opt_value (dp_normalized p))].

Section Runs.
Variable B : build.
Variable F : nat.
Hypothesis HB : valid_build B.
Hypothesis HF : (300 <= F)%nat.

(** the variables of [decode_phrase_with] at its loop *)
Local Notation locals L ph m p o s :=
  [("state", state_value s); ("normalized_phrase", o); ("params", params_value p);
   ("mode", mode_value m); ("phrase", VStr ph); ("language", VLang L)].
Local Notation word_body :=
  (EBlock
     [EIfLet (QCon ["Some"] [QBind "out"]) (EMethod (EPath ["normalized_phrase"]) "as_mut" [] [])
        (EBlock
           [EIf (EUn PBang (EMethod (EPath ["out"]) "is_empty" [] []))
              (EBlock [EMethod (EPath ["out"]) "push" [] [EChar 32]] None) (ETuple []);
            EMethod (EPath ["out"]) "push_str" [] [EPath ["word"]]] None)
        (ETuple []);
      ELet (QBind "index") None
        (EMatch (EMethod (EPath ["language"]) "index_of" [] [EPath ["word"]])
           [(QCon ["Some"] [QBind "i"], ECast (EPath ["i"]) (TyName ["u64"]));
            (QPath ["None"],
             EReturn (Some (ECall (EPath ["Err"])
               [ECall (EPath ["Error"; "UnknownWord"]) [EMethod (EPath ["word"]) "to_string" [] []]])))]);
      EMethod (EPath ["state"]) "push_index" [] [EPath ["index"]]] None).
Local Notation word_round d :=
  (for_round (fun e r => eval B prog F (enter B prog F (S (S d))) false "" e r) (QBind "word") word_body).
Definition longer (norm : option str) (w : str) : option str :=
  match norm with None => None | Some out => Some ((if is_empty out then out else out ++ [32]) ++ w) end.

Lemma word_known d L ph m p norm s w i s' :
  any_index_of L w = Some i -> i < 2 ^ b_usize_bits B ->
  p_entropy_len (d_params s) <= 32 -> p_cs_len (d_params s) <= 8 -> ba_bits (d_acc s) <= 285 ->
  dec_push_index s i = Ok s' ->
  word_round d (VStr w) (locals L ph m p (opt_value norm) s)
  = Val VUnit (locals L ph m p (opt_value (longer norm w)) s').
Proof.
  intros E1 Hi Hp1 Hp2 Hb H.
  pose proof (push_index_run B F HB HF d s i s' Hp1 Hp2 Hb H) as R.
  assert (H1 : i mod 2 ^ width B U64 = i).
  { apply N.mod_small. apply N.lt_le_trans with (1 := Hi). apply N.pow_le_mono_r; [lia|].
    change (width B U64) with 64. destruct HB as [E|E]; rewrite E; lia. }
  clear H Hp1 Hp2 Hb.
  destruct norm as [out|]; [destruct (is_empty out) eqn:E0|]; cbn [opt_value longer]; rewrite ?E0;
    unfold for_round; small; ev prog ltac:(idtac; exact R).
Qed.
Lemma word_unknown d L ph m p norm s w :
  any_index_of L w = None ->
  word_round d (VStr w) (locals L ph m p (opt_value norm) s)
  = Jump (Returned (err (err_value (UnknownWord w)))) (locals L ph m p (opt_value (longer norm w)) s).
Proof.
  intros E1.
  destruct norm as [out|]; [destruct (is_empty out) eqn:E0|]; cbn [opt_value longer err_value]; rewrite ?E0;
    unfold for_round; small; ev prog fail.
Qed.

Lemma bytes_drain_not_err k : forall s e, drain_bytes k s <> Err e.
Proof.
  induction k as [|k IH]; intros s e; cbn [drain_bytes]; [discriminate|]. destruct (_ && _); [|discriminate].
  destruct (take_bits _ _) as [[v a]|?|] eqn:E; cbn [bind]; [|exfalso; eapply take_not_err; exact E|discriminate].
  unfold set_at. destruct (_ <? _)%nat; cbn [bind]; [apply IH|discriminate].
Qed.
Lemma bits_drain_not_err k : forall s e, drain_checksum k s <> Err e.
Proof.
  induction k as [|k IH]; intros s e; cbn [drain_checksum]; [discriminate|]. destruct (_ && _); [|discriminate].
  destruct (take_bits _ _) as [[v a]|?|] eqn:E; cbn [bind]; [apply IH|exfalso; eapply take_not_err; exact E|discriminate].
Qed.
Lemma dec_push_not_err s i e : dec_push_index s i <> Err e.
Proof.
  unfold dec_push_index. destruct (push_bits _ _ _) as [a|?|] eqn:E; cbn [bind]; [|exfalso; eapply push_not_err; exact E|discriminate].
  destruct (drain_bytes _ _) as [s2|?|] eqn:E2; cbn [bind]; [apply bits_drain_not_err|elim (bytes_drain_not_err _ _ _ E2)|discriminate].
Qed.
Lemma words_run d L ph m p :
  (forall w i, any_index_of L w = Some i -> i < 2 ^ b_usize_bits B) ->
  p_entropy_len p <= 32 -> p_cs_len p <= 8 ->
  forall ws norm s, d_params s = p -> ba_bits (d_acc s) + 11 * N.of_nat (length ws) <= 285 ->
  match decode_words L ws norm s with
  | Ok (norm', s') =>
      each (map VStr ws) (word_round d) (locals L ph m p (opt_value norm) s) = Val VUnit (locals L ph m p (opt_value norm') s')
      /\ d_params s' = p
  | Err e => exists norm' s',
      each (map VStr ws) (word_round d) (locals L ph m p (opt_value norm) s)
      = Jump (Returned (err (err_value e))) (locals L ph m p (opt_value norm') s')
  | Panic => True
  end.
Proof.
  intros HL Hp1 Hp2. induction ws as [|w ws IH]; intros norm s Hs Hb; cbn [decode_words map].
  { split; [reflexivity|exact Hs]. }
  change (match norm with Some out => _ | None => None end) with (longer norm w). cbn [length] in Hb.
  destruct (any_index_of L w) as [i|] eqn:E1.
  2: { exists (longer norm w), s. eapply each_eq; [apply word_unknown; exact E1|reflexivity]. }
  destruct (dec_push_index s i) as [s1|er|] eqn:E2; cbn [bind]; [| |exact I].
  2: { elim (dec_push_not_err _ _ _ E2). }
  destruct (push_params F HF _ _ _ E2) as [H1 H2]. 
  assert (H0 : ba_bits (d_acc s1) + 11 * N.of_nat (length ws) <= 285) by lia.
  specialize (IH (longer norm w) s1 ltac:(congruence) H0).
  assert (R : word_round d (VStr w) (locals L ph m p (opt_value norm) s)
              = Val VUnit (locals L ph m p (opt_value (longer norm w)) s1)).
  { apply word_known with i; try assumption; [exact (HL _ _ E1)|rewrite Hs; assumption..|lia]. }
  destruct (decode_words L ws (longer norm w) s1) as [[norm' s']|e|]; [| |exact I].
  - destruct IH as [IH1 IH2]. split; [|exact IH2]. eapply each_more; [exact R|exact IH1].
  - destruct IH as [norm' [s' IH]]. exists norm', s'. eapply each_more; [exact R|exact IH].
Qed.

Lemma word_count_inv n c : from_word_count n = Ok c -> n <= 24.
Proof.
  rewrite word_count_table.
  repeat match goal with |- context [if ?k =? n then _ else _] => destruct (N.eqb_spec k n); [intros _; subst n; lia|] end.
  discriminate.
Qed.
Lemma params_bounds ph p : parse_params_from_phrase ph = Ok p ->
  p_entropy_len p <= 32 /\ p_cs_len p <= 8 /\ 1 <= p_cs_len p /\ N.of_nat (length (split_whitespace ph)) <= 24.
Proof.
  unfold parse_params_from_phrase. destruct (count_from_phrase ph) as [c|?|] eqn:E; cbn [bind]; [|discriminate..].
  assert (H : entropy_bit_length c / 8 <= 32 /\ checksum_bit_length c <= 8 /\ 1 <= checksum_bit_length c)
    by (destruct c; repeat split; discriminate).
  unfold BITS_PER_BYTE. remember (entropy_bit_length c / 8) as n eqn:En.
  intros [= <-]. cbn [p_entropy_len p_cs_len]. destruct H as [H1 [H2 H3]]. repeat split; [assumption..|].
  unfold count_from_phrase in E. apply word_count_inv in E. exact E.
Qed.
Ltac known := idtac;
  lazymatch goal with
  | |- run _ _ _ _ "" "parse_params_from_phrase" _ = _ => first [eapply params_ok; eassumption | eapply params_err; eassumption]
  | |- run _ _ _ _ "DecodeState" "new" _ = _ => apply state_new_run
  | |- run _ _ _ _ "DecodeState" "finish" _ = _ => eassumption
  | |- run _ _ _ _ "Count" "word_count" _ = _ => apply word_count_run
  | |- each _ _ _ = _ => eassumption
  end.
Lemma decode_run d L ph m :
  (forall w i, any_index_of L w = Some i -> i < 2 ^ b_usize_bits B) ->
  decode_phrase_with L ph m <> Panic ->
  run B prog F (S (S (S (S d)))) "" "decode_phrase_with" [VLang L; VStr ph; mode_value m]
  = inl (result decoded_value (decode_phrase_with L ph m), [VLang L; VStr ph; mode_value m]).
Proof.
  intros HL. unfold decode_phrase_with.
  destruct (parse_params_from_phrase ph) as [p|e|] eqn:E1; cbn [bind]; [| |intros []; reflexivity].
  2: { intros _. unfold result. runs prog known. }
  destruct (params_bounds _ _ E1) as [Hp1 [Hp2 [Hp3 Hw]]].
  set (norm := match m with ValidateOnly => None | BuildNormalizedPhrase => Some [] end).
  assert (Hb : ba_bits (d_acc (decode_state_new p)) + 11 * N.of_nat (length (split_whitespace ph)) <= 285)
    by (change (ba_bits (d_acc (decode_state_new p))) with 0; lia).
  pose proof (words_run (S d) L ph m p HL Hp1 Hp2 (split_whitespace ph) norm (decode_state_new p) eq_refl Hb) as R.
  assert (H5 : fit B Usize (word_count (p_count p) * 8) = Got (VInt Usize (word_count (p_count p) * 8)))
    by (apply fit_ok, small_usize; [exact HB|destruct (p_count p); reflexivity]).
  assert (H6 : fit B Usize (word_count (p_count p) * 8 + (word_count (p_count p) - 1)) = Got (VInt Usize (word_count (p_count p) * 8 + (word_count (p_count p) - 1))))
    by (apply fit_ok, small_usize; [exact HB|destruct (p_count p); reflexivity]).
  clear Hb Hw Hp1 HL.
  destruct (decode_words _ _ _ _) as [[norm' s]|e|]; cbn [bind]; [| |intros []; reflexivity].
  - destruct R as [R Hs]. destruct (dec_finish s) as [ent|e|] eqn:E2; cbn [bind]; [| |intros []; reflexivity]; intros _.
    + pose proof (finish_run B F HF d s _ E2 ltac:(discriminate) ltac:(rewrite Hs; exact Hp2) ltac:(rewrite Hs; exact Hp3)) as R2.
      clear E2 Hs Hp2 Hp3. cbv [result] in R2. unfold result, decoded_value; cbn [dp_entropy dp_normalized].
      destruct m; subst norm; cbn [opt_value] in R; cbn [mode_name] in *; runs prog known.
    + pose proof (finish_run B F HF d s _ E2 ltac:(discriminate) ltac:(rewrite Hs; exact Hp2) ltac:(rewrite Hs; exact Hp3)) as R2.
      clear E2 Hs Hp2 Hp3. cbv [result] in R2. unfold result.
      destruct m; subst norm; cbn [opt_value] in R; cbn [mode_name] in *; runs prog known.
  - destruct R as [norm' [s R]]. intros _. unfold result.
    destruct m; subst norm; cbn [opt_value] in R; cbn [mode_name] in *; runs prog known.
Qed.
End Runs.
