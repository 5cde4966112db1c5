(** Proofs that [encode_entropy_with] of the text entropy.rs does what the model says. *)
From Coq Require Import Lia.
From Verif Require Import Base Str Sha2 Language39 BitAcc Mnemonic39 MnemonicProofs RustSyntax RustEval RustSource RustExec SourceProofs.
From Coq Require Import List.
Import ListNotations.
Local Open Scope string_scope.
Local Open Scope N_scope.
Local Open Scope list_scope.

Section Runs.
Variable B : build.
Variable F : nat.
Hypothesis HB : valid_build B.
Hypothesis HF : (300 <= F)%nat.
Lemma key_size_ok d n c : from_key_size n = Ok c ->
  run B prog F (S d) "Count" "from_key_size" [VInt Usize n] = inl (ok (count_value c), [VInt Usize n]).
Proof. intros H. rewrite from_key_size_run, H. reflexivity. Qed.
Lemma key_size_err d n e : from_key_size n = Err e ->
  run B prog F (S d) "Count" "from_key_size" [VInt Usize n] = inl (err (err_value e), [VInt Usize n]).
Proof. intros H. rewrite from_key_size_run, H. reflexivity. Qed.
Lemma sha_some m : (0 <? N.of_nat (length (sha256 m))) = true.
Proof. rewrite sha256_length. reflexivity. Qed.
Lemma sha_first m : nth_error (sha256 m) (N.to_nat 0) = Some (hd x00 (sha256 m)).
Proof. pose proof (sha256_length m). destruct (sha256 m); [discriminate|reflexivity]. Qed.

Ltac known := idtac;
  lazymatch goal with
  | |- run _ _ _ _ "BitAccumulator" "new" _ = _ => apply new_run
  | |- run _ _ _ _ "BitAccumulator" "bits" _ = _ => apply bits_run
  | |- run _ _ _ _ "BitAccumulator" "can_take" _ = _ => apply can_take_run
  | |- run _ _ _ _ "BitAccumulator" "push_bits" _ = _ => eapply push_bits_run; eassumption
  | |- run _ _ _ _ "BitAccumulator" "take_bits" _ = _ => eapply take_bits_run; eassumption
  | |- run _ _ _ _ "Count" "from_key_size" _ = _ => first [eapply key_size_ok; eassumption | eapply key_size_err; eassumption]
  | |- run _ _ _ _ "Count" "word_count" _ = _ => apply word_count_run
  | |- run _ _ _ _ "Count" "checksum_bit_length" _ = _ => apply checksum_bit_length_run
  | |- run _ _ _ _ "Count" "entropy_bit_length" _ = _ => apply entropy_bit_length_run
  end.

(** the variables of [encode_entropy_with] *)
Local Notation fixed L e c := ([("checksum_bit_length", VInt Usize (checksum_bit_length c));
   ("checksum_byte", VInt U8 (b2n (hd x00 (sha256 e))));
   ("count", count_value c); ("entropy", VBytes e); ("language", VLang L)]).
Local Notation push_index_body := (EBlock
    [EIf (EUn PBang (EMethod (EPath ["phrase"]) "is_empty" [] []))
       (EBlock [EMethod (EPath ["phrase"]) "push" [] [EChar 32]] None)
       (ETuple []);
     EMethod (EPath ["phrase"]) "push_str" []
       [EMethod (EPath ["language"]) "word_of" [] [EPath ["idx"]]]]
    None).
Local Notation push_index L e c := (VClo ""
    [(QBind "idx", Some (TyName ["usize"])); (QBind "phrase", Some (TyRef true (TyName ["String"])))]
    push_index_body
    (("accumulator", acc_value ba_new) :: ("phrase", VStr []) :: fixed L e c)).
Local Notation vars L e c a p := (("push_index", push_index L e c) :: ("accumulator", acc_value a) :: ("phrase", VStr p) :: fixed L e c).
Local Notation drain_test := (EMethod (EPath ["accumulator"]) "can_take" [] [EPath ["BITS_PER_WORD"]]).
Local Notation drain_body := (EBlock
    [ELet (QBind "index") None
       (ECast (EMethod (EPath ["accumulator"]) "take_bits" [] [EPath ["BITS_PER_WORD"]]) (TyName ["usize"]));
     ECall (EPath ["push_index"]) [EPath ["index"]; EAddr true (EPath ["phrase"])]] None).

Lemma take_lt {E} a n v a' : take_bits (E := E) a n = Ok (v, a') -> v < 2 ^ n.
Proof.
  clear HF HB. unfold take_bits. destruct (_ <? _); [discriminate|]. destruct (_ || _); [discriminate|].
  remember (N.shiftl 1 n - 1) as mask eqn:Em. intros [= <- _].
  replace mask with (N.ones n) by (rewrite Em, N.ones_equiv, N.shiftl_1_l, N.sub_1_r; reflexivity).
  rewrite N.land_ones. apply N.mod_lt, N.pow_nonzero. lia.
Qed.
Lemma take_small a n v a' : take_bits (E := err39) a n = Ok (v, a') -> n < 32 -> v mod 2 ^ width B Usize = v.
Proof.
  intros H Hn. apply take_lt in H. apply N.mod_small. apply small_usize; [exact HB|].
  apply N.lt_trans with (2 ^ n); [exact H|apply N.pow_lt_mono_r; lia].
Qed.
Lemma drain_loop d x v L e c : x = "b" \/ x = "checksum_bits" ->
  forall k n a p a' p', (k <= n)%nat -> enc_drain L k a p = Ok (a', p') ->
  loop n (while_round (fun e r => eval B prog F (enter B prog F (S (S d))) false "" e r) drain_test drain_body)
    ((x, v) :: vars L e c a p) = Val VUnit ((x, v) :: vars L e c a' p').
Proof.
  intros Hx k. induction k as [|k IH]; intros n a p a' p' Hn H; [discriminate|]. destruct n as [|n]; [lia|].
  cbn [enc_drain] in H. unfold BITS_PER_WORD in H.
  destruct (can_take a 11) eqn:E1.
  - destruct (take_bits a 11) as [[i a1]|?|] eqn:E2; [|discriminate..]. cbn [bind] in H.
    unfold enc_push_index in H. destruct (any_word_of L i) as [w|] eqn:E3; [|discriminate]. cbn [bind] in H.
    pose proof (take_small _ _ _ _ E2 eq_refl) as H1.
    eapply loop_more; [|eapply IH; [lia|exact H]].
    unfold while_round. clear IH H.
    destruct (is_empty p) eqn:E4; destruct Hx as [-> | ->]; ev prog known.
  - injection H as <- <-. eapply loop_end.
    unfold while_round. destruct Hx as [-> | ->]; ev prog known.
Qed.

Lemma drain_bits L k : forall a p a' p', enc_drain L k a p = Ok (a', p') -> ba_bits a' < 11.
Proof.
  induction k as [|k IH]; intros a p a' p'; cbn [enc_drain]; [discriminate|].
  destruct (can_take a BITS_PER_WORD) eqn:E.
  - destruct (take_bits _ _) as [[i a1]|?|]; [|discriminate..]. cbn [bind].
    destruct (enc_push_index _ _ _); [|discriminate..]. cbn [bind]. apply IH.
  - intros [= <- _]. unfold can_take in E. apply N.leb_gt in E. exact E.
Qed.
Lemma push_bits_bits {E} a v n a' : push_bits (E := E) a v n = Ok a' -> ba_bits a' = ba_bits a + n.
Proof.
  unfold push_bits. destruct (56 <? n); [discriminate|].
  remember (N.lor _ _) as x. destruct (_ <=? _); [discriminate|]. intros [= <-]. reflexivity.
Qed.
Local Notation byte_round := (EBlock
    [EMethod (EPath ["accumulator"]) "push_bits" []
       [ECast (EPath ["b"]) (TyName ["u64"]); EPath ["BITS_PER_BYTE"]]]
    (Some (EWhile drain_test drain_body))).
Lemma byte_u64 b : b2n b mod 2 ^ width B U64 = b2n b.
Proof. apply N.mod_small. pose proof (b2n_bound b). apply N.lt_trans with 256; [assumption|reflexivity]. Qed.
Ltac known_loop := idtac;
  lazymatch goal with
  | |- run _ _ _ _ _ _ _ = _ => known
  | |- loop _ _ (?x :: ?r) = _ => eapply drain_loop; [auto| |eassumption]; lia
  end.
Lemma bytes_loop d L e c : forall l a p a' p', ba_bits a < 11 -> enc_bytes L l a p = Ok (a', p') ->
  each (map (fun b => VInt U8 (b2n b)) l)
    (for_round (fun e r => eval B prog F (enter B prog F (S (S d))) false "" e r) (QRef (QBind "b")) byte_round)
    (vars L e c a p) = Val VUnit (vars L e c a' p') /\ ba_bits a' < 11.
Proof.
  induction l as [|b l IH]; intros a p a' p' Ha; cbn [enc_bytes map].
  { intros [= <- <-]. split; [reflexivity|exact Ha]. }
  unfold BITS_PER_BYTE. destruct (push_bits a (b2n b) 8) as [a1|?|] eqn:E1; [|discriminate..]. cbn [bind].
  unfold enc_drain_all. destruct (enc_drain _ _ a1 p) as [[a2 p2]|?|] eqn:E2; [|discriminate..]. cbn [bind].
  intros H. pose proof (drain_bits _ _ _ _ _ _ E2) as H2. destruct (IH _ _ _ _ H2 H) as [IH1 IH2]. split; [|exact IH2].
  eapply each_more; [|exact IH1]. clear IH IH1 IH2 H H2.
  pose proof (push_bits_bits _ _ _ _ E1) as H3. pose proof (byte_u64 b) as H1.
  assert (Hk : (S (N.to_nat (ba_bits a1)) <= F)%nat) by lia.
  remember (S (N.to_nat (ba_bits a1))) as k eqn:Ek. clear Ek H3.
  unfold for_round. small.
  ev prog known_loop.
Qed.

Lemma mul_fit a b s : mul_usize B a b = Ok s -> fit B Usize (a * b) = Got (VInt Usize s).
Proof.
  unfold mul_usize, fit. cbn [width]. destruct (_ <? _); [intros [= <-]; reflexivity|].
  destruct (b_debug B); [discriminate|]. intros [= <-]. reflexivity.
Qed.
Lemma mul_panics a b : mul_usize B a b = Panic -> fit B Usize (a * b) = Fails Panicked.
Proof. unfold mul_usize, fit. cbn [width]. destruct (_ <? _); [discriminate|]. destruct (b_debug B); [reflexivity|discriminate]. Qed.
Ltac known_all := idtac;
  lazymatch goal with
  | |- run _ _ _ _ _ _ _ = _ => known
  | |- loop _ _ (?x :: ?r) = _ => eapply drain_loop; [auto| |eassumption]; lia
  | |- each _ _ _ = _ => eapply bytes_loop; [reflexivity|eassumption]
  end.
Lemma push_not_err {E} a v n e : push_bits (E := E) a v n <> Err e.
Proof. unfold push_bits. destruct (_ <? _); [discriminate|]. destruct (_ <=? _); discriminate. Qed.
Lemma take_not_err {E} a n e : take_bits (E := E) a n <> Err e.
Proof. unfold take_bits. destruct (_ <? _); [discriminate|]. destruct (_ || _); discriminate. Qed.
Lemma drain_not_err L k : forall a p e, enc_drain L k a p <> Err e.
Proof.
  induction k as [|k IH]; intros a p e; cbn [enc_drain]; [discriminate|]. destruct (can_take _ _); [|discriminate].
  destruct (take_bits a BITS_PER_WORD) as [[i a1]|?|] eqn:E; cbn [bind]; [|elim (take_not_err _ _ _ E)|discriminate].
  unfold enc_push_index. destruct (any_word_of L i); cbn [bind]; [apply IH|discriminate].
Qed.
Lemma bytes_not_err L l : forall a p e, enc_bytes L l a p <> Err e.
Proof.
  induction l as [|b l IH]; intros a p e; cbn [enc_bytes]; [discriminate|].
  destruct (push_bits a (b2n b) BITS_PER_BYTE) as [a1|?|] eqn:E; cbn [bind]; [|elim (push_not_err _ _ _ _ E)|discriminate].
  unfold enc_drain_all. destruct (enc_drain _ _ _ _) as [[a2 p2]|?|] eqn:E2; cbn [bind]; [apply IH|elim (drain_not_err _ _ _ _ _ E2)|discriminate].
Qed.
Lemma encode_overflow d L e : mul_usize B (N.of_nat (length e)) BITS_PER_BYTE = Panic ->
  run B prog F (S (S (S d))) "" "encode_entropy_with" [VLang L; VBytes e] = inr Panicked.
Proof. intros H. apply mul_panics in H. unfold BITS_PER_BYTE in H. runs prog known_all. Qed.
Lemma encode_run d L e : encode_entropy_with B L e <> Panic ->
  run B prog F (S (S (S d))) "" "encode_entropy_with" [VLang L; VBytes e]
  = inl (result VStr (encode_entropy_with B L e), [VLang L; VBytes e]).
Proof.
  unfold encode_entropy_with. destruct (mul_usize _ _ _) as [s|?|] eqn:E1; cbn [bind].
  2: { exfalso. unfold mul_usize in E1. destruct (_ <? _); [discriminate|]. destruct (b_debug B); discriminate. }
  2: { intros []. reflexivity. }
  apply mul_fit in E1. unfold BITS_PER_BYTE in E1.
  destruct (from_key_size _) as [c|er|] eqn:E2; cbn [bind]; [| |intros []; reflexivity].
  2: { intros _. unfold result. runs prog known_all. }
  destruct (enc_bytes _ _ _ _) as [[a p]|?|] eqn:E3; cbn [bind]; [|elim (bytes_not_err _ _ _ _ _ E3)|intros []; reflexivity].
  destruct (push_bits _ _ _) as [a1|?|] eqn:E4; cbn [bind]; [|elim (push_not_err _ _ _ _ E4)|intros []; reflexivity].
  unfold enc_drain_all. destruct (enc_drain _ _ _ _) as [[a2 p2]|?|] eqn:E5; cbn [bind]; [|elim (drain_not_err _ _ _ _ _ E5)|intros []; reflexivity].
  unfold BITS_PER_BYTE in E4.
  pose proof (sha_some e) as H3. pose proof (sha_first e) as H4.
  assert (H5 : fit B Usize (word_count c * 8) = Got (VInt Usize (word_count c * 8)))
    by (apply fit_ok, small_usize; [exact HB|destruct c; reflexivity]).
  assert (H6 : fit B Usize (word_count c * 8 + (word_count c - 1)) = Got (VInt Usize (word_count c * 8 + (word_count c - 1))))
    by (apply fit_ok, small_usize; [exact HB|destruct c; reflexivity]).
  assert (H7 : (checksum_bit_length c <=? 8) = true) by (destruct c; reflexivity).
  assert (H8 : shift_by B U8 (8 - checksum_bit_length c) = Some (8 - checksum_bit_length c))
    by (apply shift_ok; destruct c; reflexivity).
  assert (H9 : N.shiftr (b2n (hd x00 (sha256 e))) (8 - checksum_bit_length c) mod 2 ^ width B U64
               = N.shiftr (b2n (hd x00 (sha256 e))) (8 - checksum_bit_length c)).
  { apply N.mod_small. rewrite N.shiftr_div_pow2. pose proof (b2n_bound (hd x00 (sha256 e))) as Hb.
    apply N.le_lt_trans with (b2n (hd x00 (sha256 e))); [apply N.div_le_upper_bound; [apply N.pow_nonzero; lia|]|].
    - assert (2 ^ (8 - checksum_bit_length c) <> 0) by (apply N.pow_nonzero; lia). nia.
    - apply N.lt_trans with 256; [assumption|reflexivity]. }
  destruct (bytes_loop d L e c e ba_new [] a p eq_refl E3) as [HL Ha].
  pose proof (push_bits_bits _ _ _ _ E4) as Hb.
  assert (Hk : (S (N.to_nat (ba_bits a1)) <= F)%nat) by (destruct c; cbn in Hb; lia).
  remember (S (N.to_nat (ba_bits a1))) as k eqn:Ek. clear Ek Hb HL.
  intros Hn. unfold result.
  destruct (b_debug B) eqn:E.
  - destruct (ba_bits a2 =? 0) eqn:E0; [|elim Hn; reflexivity]. cbn [negb andb].
    runs prog known_all.
  - cbn [andb]. runs prog known_all.
Qed.
End Runs.
