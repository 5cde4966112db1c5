(** C111: the text of the source itself, read by [RustSyntax] and run by [RustEval]. *)
From Coq Require Import Lia.
From Verif Require Import Base Str Sha2 Unicode Language39 BitAcc Mnemonic39 Spec39 LangSpec39 EncProofs DecProofs LangProofs MnemonicProofs QueueSpec39 BitsProofs BitsProofs ExtraProofs39
  RustSyntax RustEval RustSource RustExec SourceProofs SourceProofs2 SourceProofs3 SourceProofs4.
From Coq Require Import List.
Import ListNotations.
Local Open Scope string_scope.
Local Open Scope N_scope.
Local Open Scope list_scope.

(** [p] is the program the four texts denote *)
Definition reads (p : list item) : Prop :=
  exists a b c d, parse bit_accumulator_rs = Some a /\ parse count_rs = Some b /\ parse entropy_rs = Some c /\
    parse phrase_rs = Some d /\ p = a ++ b ++ c ++ d.

Lemma bit_accumulator_read : parse bit_accumulator_rs = Some bit_accumulator_items.
Proof. vm_cast_no_check (eq_refl (Some bit_accumulator_items)). Qed.
Lemma count_read : parse count_rs = Some count_items.
Proof. vm_cast_no_check (eq_refl (Some count_items)). Qed.
Lemma entropy_read : parse entropy_rs = Some entropy_items.
Proof. vm_cast_no_check (eq_refl (Some entropy_items)). Qed.
Lemma phrase_read : parse phrase_rs = Some phrase_items.
Proof. vm_cast_no_check (eq_refl (Some phrase_items)). Qed.
Lemma reads_prog p : reads p <-> p = prog.
Proof.
  unfold reads. rewrite bit_accumulator_read, count_read, entropy_read, phrase_read. split.
  - intros [a [b [c [d [[= <-] [[= <-] [[= <-] [[= <-] ->]]]]]]]]. reflexivity.
  - intros ->. repeat eexists.
Qed.

Theorem C111_source_read : exists! p, reads p.
Proof. exists prog. split; [apply reads_prog; reflexivity|]. intros q H. apply reads_prog in H. congruence. Qed.
Print Assumptions C111_source_read.


Lemma depth4 D : (4 <= D)%nat -> exists d, D = S (S (S (S d))).
Proof. intros H. exists (D - 4)%nat. lia. Qed.

(** [encode_entropy_with] of the text entropy.rs computes the phrase BIP-0039 assigns to the entropy and leaves its
    arguments alone. *)
Theorem C111_encode_is_bip39 p B F D U L e :
  reads p -> valid_build B -> (300 <= F)%nat -> (4 <= D)%nat ->
  lang_contract U L -> legal_entropy_len (length e) ->
  exists idxs ws, bip39_indices e idxs /\
    Forall2 (fun i w => nth_error (lang_words L) (N.to_nat i) = Some w) idxs ws /\
    run B p F D "" "encode_entropy_with" [VLang (any_of L); VBytes e]
    = inl (VCon "Result" "Ok" [VStr (join [32] ws)], [VLang (any_of L); VBytes e]).
Proof.
  intros HP HB HF HD LC HL. apply reads_prog in HP. subst p. destruct (depth4 D HD) as [d ->].
  destruct (from_entropy_words U L LC B e HB HL) as [idxs [ws [HI [HW [Hin [HN E]]]]]].
  unfold from_entropy, encode_entropy in E.
  destruct (encode_entropy_with B (any_of L) e) as [ph|?|] eqn:E1; cbn [bind] in E; [|discriminate..].
  injection E as ->. exists idxs, ws. split; [exact HI|]. split.
  - clear - HW HI LC. destruct HI as [HI _]. revert HI. induction HW; intros HI; constructor; inversion HI; subst.
    + rewrite <- (lc_word_of U L LC) by assumption. assumption.
    + auto.
  - rewrite (encode_run B F HB HF (S d) (any_of L) e) by (rewrite E1; discriminate). rewrite E1. reflexivity.
Qed.
Print Assumptions C111_encode_is_bip39.

(** Other lengths are reported in bits. The multiplication of the length by 8 panics in debug builds if it
    overflows [usize]. *)
Theorem C111_encode_illegal p B F D L e :
  reads p -> valid_build B -> (300 <= F)%nat -> (4 <= D)%nat ->
  ~ legal_entropy_len (length e) -> 8 * N.of_nat (length e) < 2 ^ b_usize_bits B ->
  run B p F D "" "encode_entropy_with" [VLang L; VBytes e]
  = inl (VCon "Result" "Err" [VCon "Error" "BadEntropyBitCount" [VInt Usize (8 * N.of_nat (length e))]], [VLang L; VBytes e]).
Proof.
  intros HP HB HF HD HL HW. apply reads_prog in HP. subst p. destruct (depth4 D HD) as [d ->].
  rewrite N.mul_comm in HW. pose proof (encode_illegal B L e HL HW) as E.
  rewrite (encode_run B F HB HF (S d) L e) by (rewrite E; discriminate). rewrite E. reflexivity.
Qed.
Print Assumptions C111_encode_illegal.
Theorem C111_encode_overflow p B F D L e :
  reads p -> valid_build B -> (300 <= F)%nat -> (4 <= D)%nat ->
  b_debug B = true -> 2 ^ b_usize_bits B <= 8 * N.of_nat (length e) ->
  run B p F D "" "encode_entropy_with" [VLang L; VBytes e] = inr Panicked.
Proof.
  intros HP HB HF HD Hd HW. apply reads_prog in HP. subst p. destruct (depth4 D HD) as [d ->].
  apply encode_overflow; [assumption..|]. unfold mul_usize, BITS_PER_BYTE.
  destruct (N.ltb_spec (N.of_nat (length e) * 8) (2 ^ b_usize_bits B)); [lia|]. rewrite Hd. reflexivity.
Qed.
Print Assumptions C111_encode_overflow.
(** In all cases the text computes what the model does. *)
Theorem C111_encode_model p B F D L e :
  reads p -> valid_build B -> (300 <= F)%nat -> (4 <= D)%nat -> encode_entropy_with B L e <> Panic ->
  run B p F D "" "encode_entropy_with" [VLang L; VBytes e]
  = inl (match encode_entropy_with B L e with
         | Ok s => VCon "Result" "Ok" [VStr s]
         | Err er => VCon "Result" "Err" [err_value er]
         | Panic => VUnit
         end, [VLang L; VBytes e]).
Proof.
  intros HP HB HF HD Hn. apply reads_prog in HP. subst p. destruct (depth4 D HD) as [d ->].
  rewrite (encode_run B F HB HF (S d) L e Hn). destruct (encode_entropy_with B L e); reflexivity.
Qed.
Print Assumptions C111_encode_model.

(** [decode_phrase_with] of the text phrase.rs has exactly the documented outcome, for every table of words whose
    indices are [usize]; it never panics. *)
Theorem C111_decode_is_bip39 p B F D L s m r :
  reads p -> valid_build B -> (300 <= F)%nat -> (4 <= D)%nat ->
  (forall w i, any_index_of L w = Some i -> i < 2 ^ b_usize_bits B) ->
  parse_spec (any_index_of L) s r ->
  run B p F D "" "decode_phrase_with" [VLang L; VStr s; VCon "DecodeMode" (mode_name m) []]
  = inl (match r with
         | POk e n =>
             VCon "Result" "Ok"
               [VRec "DecodedPhrase"
                  [("entropy", VBytes e);
                   ("normalized_phrase",
                    match m with
                    | ValidateOnly => VCon "Option" "None" []
                    | BuildNormalizedPhrase => VCon "Option" "Some" [VStr n]
                    end)]]
         | PBadCount k => VCon "Result" "Err" [VCon "Error" "BadWordCount" [VInt Usize (N.of_nat k)]]
         | PUnknown w => VCon "Result" "Err" [VCon "Error" "UnknownWord" [VStr w]]
         | PBadChecksum => VCon "Result" "Err" [VCon "Error" "InvalidChecksum" []]
         end, [VLang L; VStr s; VCon "DecodeMode" (mode_name m) []]).
Proof.
  intros HP HB HF HD HL HR. apply reads_prog in HP. subst p. destruct (depth4 D HD) as [d ->].
  destruct (decode_phrase_outcome L s m) as [r' [HR' E]]. pose proof (parse_spec_fun _ _ _ _ HR HR') as ->.
  rewrite (decode_run B F HB HF d L s m HL) by (rewrite E; destruct r'; discriminate). rewrite E.
  destruct r', m; reflexivity.
Qed.
Print Assumptions C111_decode_is_bip39.

(** The bit accumulator of the text is a queue of bits. *)
Fixpoint run_source (B : build) (p : list item) (F D : nat) (v : value) (ops : list bit_op) : option (list N * value) :=
  match ops with
  | [] => Some ([], v)
  | Push w n :: ops' =>
      match run B p F D "BitAccumulator" "push_bits" [v; VInt U64 w; VInt Usize (N.of_nat n)] with
      | inl (VUnit, v' :: _) => run_source B p F D v' ops'
      | _ => None
      end
  | Take n :: ops' =>
      match run B p F D "BitAccumulator" "take_bits" [v; VInt Usize (N.of_nat n)] with
      | inl (VInt U64 x, v' :: _) =>
          match run_source B p F D v' ops' with Some (xs, v'') => Some (x :: xs, v'') | None => None end
      | _ => None
      end
  end.
Lemma run_source_acc B F d ops : valid_build B -> forall a vs a', run_acc a ops = Ok (vs, a') ->
  run_source B prog F (S d) (acc_value a) ops = Some (vs, acc_value a').
Proof.
  intros HB. induction ops as [|[w n|n] ops IH]; intros a vs a'; cbn [run_acc run_source].
  - intros [= <- <-]. reflexivity.
  - destruct (push_bits a w (N.of_nat n)) as [a1|?|] eqn:E; cbn [bind]; [|discriminate..].
    rewrite (push_bits_run B F HB d a w _ a1 E). apply IH.
  - destruct (take_bits a (N.of_nat n)) as [[x a1]|?|] eqn:E; cbn [bind]; [|discriminate..].
    rewrite (take_bits_run B F d a _ x a1 E).
    destruct (run_acc a1 ops) as [[xs a2]|?|] eqn:E2; cbn [bind]; [|discriminate..]. intros [= <- <-].
    rewrite (IH _ _ _ E2). reflexivity.
Qed.
Theorem C111_bit_queue p B F D ops vs q :
  reads p -> valid_build B -> (1 <= D)%nat -> run_queue [] ops = Some (vs, q) ->
  exists v0 v, run B p F D "BitAccumulator" "new" [] = inl (v0, []) /\
    run_source B p F D v0 ops = Some (vs, v) /\
    run B p F D "BitAccumulator" "bits" [v] = inl (VInt Usize (N.of_nat (length q)), [v]) /\
    forall n, run B p F D "BitAccumulator" "can_take" [v; VInt Usize n]
              = inl (VBool (n <=? N.of_nat (length q)), [v; VInt Usize n]).
Proof.
  intros HP HB HD HQ. apply reads_prog in HP. subst p. destruct D as [|d]; [lia|].
  destruct (run_acc_queue ops ba_new [] vs q acc_rep_new HQ) as [a [E [_ R]]].
  exists (acc_value ba_new), (acc_value a). split; [apply new_run|]. split; [apply run_source_acc; assumption|].
  split; [rewrite <- R; apply bits_run|]. intros n. rewrite can_take_run. unfold can_take. rewrite R. reflexivity.
Qed.
Print Assumptions C111_bit_queue.

(** The counts of words of the text *)
Definition counts : list (string * N * N * N) :=
  [("Words12", 12, 128, 4); ("Words15", 15, 160, 5); ("Words18", 18, 192, 6); ("Words21", 21, 224, 7); ("Words24", 24, 256, 8)].
Theorem C111_counts p B F D w x e c :
  reads p -> valid_build B -> (2 <= D)%nat -> In (w, x, e, c) counts ->
  let v := VCon "Count" w [] in
  run B p F D "Count" "from_word_count" [VInt Usize x] = inl (VCon "Result" "Ok" [v], [VInt Usize x]) /\
  run B p F D "Count" "from_key_size" [VInt Usize e] = inl (VCon "Result" "Ok" [v], [VInt Usize e]) /\
  run B p F D "Count" "word_count" [v] = inl (VInt Usize x, [v]) /\
  run B p F D "Count" "entropy_bit_length" [v] = inl (VInt Usize e, [v]) /\
  run B p F D "Count" "checksum_bit_length" [v] = inl (VInt Usize c, [v]) /\
  run B p F D "Count" "total_bit_length" [v] = inl (VInt Usize (11 * x), [v]).
Proof.
  intros HP HB HD HI. apply reads_prog in HP. subst p. destruct D as [|[|d]]; [lia..|]. cbv zeta.
  assert (Hc : exists k, w = count_name k /\ x = word_count k /\ e = entropy_bit_length k /\ c = checksum_bit_length k).
  { unfold counts in HI. cbn [In] in HI.
    destruct HI as [H|[H|[H|[H|[H|[]]]]]]; injection H as <- <- <- <-;
      [exists Words12|exists Words15|exists Words18|exists Words21|exists Words24]; repeat split. }
  destruct Hc as [k [-> [-> [-> ->]]]].
  split; [rewrite from_word_count_run by exact HB; destruct k; reflexivity|].
  split; [rewrite from_key_size_run by exact HB; destruct k; reflexivity|].
  split; [apply word_count_run|]. split; [apply entropy_bit_length_run; exact HB|].
  split; [apply checksum_bit_length_run; exact HB|].
  rewrite total_bit_length_run by exact HB. destruct k; reflexivity.
Qed.
Print Assumptions C111_counts.
Theorem C111_counts_others p B F D n :
  reads p -> valid_build B -> (2 <= D)%nat ->
  (~ In n [12; 15; 18; 21; 24] -> run B p F D "Count" "from_word_count" [VInt Usize n]
    = inl (VCon "Result" "Err" [VCon "Error" "BadWordCount" [VInt Usize n]], [VInt Usize n])) /\
  (~ In n [128; 160; 192; 224; 256] -> run B p F D "Count" "from_key_size" [VInt Usize n]
    = inl (VCon "Result" "Err" [VCon "Error" "BadEntropyBitCount" [VInt Usize n]], [VInt Usize n])).
Proof.
  intros HP HB HD. apply reads_prog in HP. subst p. destruct D as [|d]; [lia|].
  rewrite from_word_count_run, from_key_size_run by exact HB. rewrite word_count_table, key_size_table. cbn [In].
  split; intros H;
    repeat match goal with |- context [if ?k =? n then _ else _] => destruct (N.eqb_spec k n); [exfalso; apply H; tauto|] end;
    reflexivity.
Qed.
Print Assumptions C111_counts_others.

(** *** Concrete cases *)
Definition b64 : build := {| b_debug := true; b_usize_bits := 64 |}.
Definition r32 : build := {| b_debug := false; b_usize_bits := 32 |}.
Example C111_case : reads prog /\ valid_build b64 /\ valid_build r32 /\
  run b64 prog 300 4 "" "decode_phrase_with"
    [VLang {| any_word_of := fun _ => None; any_index_of := fun _ => None |}; VStr (lit "legal  winner"); VCon "DecodeMode" "ValidateOnly" []]
  = inl (VCon "Result" "Err" [VCon "Error" "BadWordCount" [VInt Usize 2]],
         [VLang {| any_word_of := fun _ => None; any_index_of := fun _ => None |}; VStr (lit "legal  winner"); VCon "DecodeMode" "ValidateOnly" []]).
Proof.
  split; [apply reads_prog; reflexivity|]. split; [right; reflexivity|]. split; [left; reflexivity|].
  vm_compute. reflexivity.
Qed.
(** What a text says matters: a sum that overflows panics in debug builds and wraps in release builds, a shift drops
    the bits that leave the type. *)
Definition small_rs : string := "fn f(a: u8, b: u8) -> u8 { a + b } fn g(a: u8) -> u8 { (a << 1) | 1 }".
Example C111_meaning : exists p, parse small_rs = Some p /\
  run b64 p 1 1 "" "f" [VInt U8 200; VInt U8 56] = inr Panicked /\
  run r32 p 1 1 "" "f" [VInt U8 200; VInt U8 56] = inl (VInt U8 0, [VInt U8 200; VInt U8 56]) /\
  run b64 p 1 1 "" "g" [VInt U8 129] = inl (VInt U8 3, [VInt U8 129]).
Proof. eexists. split; [vm_compute; reflexivity|]. vm_compute. repeat split. Qed.
