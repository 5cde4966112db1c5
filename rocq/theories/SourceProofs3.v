(** Proofs that [decode_phrase_with] of the text phrase.rs does what the model says. *)
From Coq Require Import Lia.
From Verif Require Import Base Str Sha2 Language39 BitAcc Mnemonic39 MnemonicProofs RustSyntax RustEval RustSource RustExec SourceProofs SourceProofs2.
From Coq Require Import List.
Import ListNotations.
Local Open Scope string_scope.
Local Open Scope N_scope.
Local Open Scope list_scope.

Notation params_value p :=
  (VRec "DecodeParams" [("entropy_byte_length", VInt Usize (p_entropy_len p));
                        ("checksum_bit_length", VInt Usize (p_cs_len p)); ("count", count_value (p_count p))]).
Notation state_value s :=
  (VRec "DecodeState"
     [("params", params_value (d_params s)); ("entropy", VBytes (d_entropy s)); ("entropy_out", VInt Usize (d_out s));
      ("accumulator", acc_value (d_acc s)); ("actual_checksum", VInt U8 (d_cs s));
      ("actual_checksum_filled", VInt Usize (d_cs_filled s))]).

Section Runs.
Variable B : build.
Variable F : nat.
Hypothesis HB : valid_build B.
Hypothesis HF : (300 <= F)%nat.

Lemma phrase_ok d s c : count_from_phrase s = Ok c ->
  run B prog F (S (S d)) "Count" "from_phrase" [VStr s] = inl (ok (count_value c), [VStr s]).
Proof. intros H. rewrite from_phrase_run, H. reflexivity. Qed.
Lemma phrase_err d s e : count_from_phrase s = Err e ->
  run B prog F (S (S d)) "Count" "from_phrase" [VStr s] = inl (err (err_value e), [VStr s]).
Proof. intros H. rewrite from_phrase_run, H. reflexivity. Qed.
(** a literal without suffix takes the type of the parameter *)
Lemma lit_run d f a n : f = "can_take" \/ f = "take_bits" ->
  run B prog F d "BitAccumulator" f [acc_value a; VInt Lit n]
  = run B prog F d "BitAccumulator" f [acc_value a; VInt Usize n].
Proof. intros [-> | ->]; unfold run; lookup prog; reflexivity. Qed.
Lemma can_take_lit d a n :
  run B prog F (S d) "BitAccumulator" "can_take" [acc_value a; VInt Lit n]
  = inl (VBool (can_take a n), [acc_value a; VInt Usize n]).
Proof. rewrite lit_run by auto. apply can_take_run. Qed.
Lemma take_bits_lit d a n v a' : take_bits (E := err39) a n = Ok (v, a') ->
  run B prog F (S d) "BitAccumulator" "take_bits" [acc_value a; VInt Lit n]
  = inl (VInt U64 v, [acc_value a'; VInt Usize n]).
Proof. rewrite lit_run by auto. apply take_bits_run; assumption. Qed.
Ltac known := idtac;
  lazymatch goal with
  | |- run _ _ _ _ "BitAccumulator" "new" _ = _ => apply new_run
  | |- run _ _ _ _ "BitAccumulator" "bits" _ = _ => apply bits_run
  | |- run _ _ _ _ "BitAccumulator" "can_take" _ = _ => first [apply can_take_run | apply can_take_lit]
  | |- run _ _ _ _ "BitAccumulator" "push_bits" _ = _ => eapply push_bits_run; eassumption
  | |- run _ _ _ _ "BitAccumulator" "take_bits" _ = _ => first [eapply take_bits_run; eassumption | eapply take_bits_lit; eassumption]
  | |- run _ _ _ _ "Count" "from_phrase" _ = _ => first [eapply phrase_ok; eassumption | eapply phrase_err; eassumption]
  | |- run _ _ _ _ "Count" "word_count" _ = _ => apply word_count_run
  | |- run _ _ _ _ "Count" "checksum_bit_length" _ = _ => apply checksum_bit_length_run
  | |- run _ _ _ _ "Count" "entropy_bit_length" _ = _ => apply entropy_bit_length_run
  end.

Lemma params_ok d s p : parse_params_from_phrase s = Ok p ->
  run B prog F (S (S (S d))) "" "parse_params_from_phrase" [VStr s] = inl (ok (params_value p), [VStr s]).
Proof.
  unfold parse_params_from_phrase. destruct (count_from_phrase s) as [c|?|] eqn:E; [|discriminate..]. cbn [bind].
  unfold BITS_PER_BYTE. remember (entropy_bit_length c / 8) as n eqn:En. symmetry in En. intros [= <-].
  cbn [p_entropy_len p_cs_len p_count]. assert (H : (8 =? 0) = false) by reflexivity.
  runs prog known.
Qed.
Lemma params_err d s e : parse_params_from_phrase s = Err e ->
  run B prog F (S (S (S d))) "" "parse_params_from_phrase" [VStr s] = inl (err (err_value e), [VStr s]).
Proof.
  unfold parse_params_from_phrase. destruct (count_from_phrase s) as [c|?|] eqn:E; cbn [bind]; [discriminate| |discriminate].
  intros [= <-]. runs prog known.
Qed.
Lemma state_new_run d p :
  run B prog F (S (S d)) "DecodeState" "new" [params_value p] = inl (state_value (decode_state_new p), [params_value p]).
Proof.
  unfold decode_state_new. cbn [d_params d_entropy d_out d_acc d_cs d_cs_filled]. change x00 with (n2b 0).
  runs prog known.
Qed.

(** the variables of [DecodeState::push_index] *)
Local Notation vars p i s :=
  [("checksum_bit_length", VInt Usize (p_cs_len p)); ("entropy_byte_length", VInt Usize (p_entropy_len p));
   ("index", VInt U64 i); ("self", state_value s)].
Local Notation self_field f := (EField (EPath ["self"]) f).
Local Notation byte_test :=
  (EBin PAndAnd (EBin PLt (self_field "entropy_out") (EPath ["entropy_byte_length"]))
     (EMethod (self_field "accumulator") "can_take" [] [EPath ["BITS_PER_BYTE"]])).
Local Notation byte_body :=
  (EBlock
     [EAssign (EIndex (self_field "entropy") (self_field "entropy_out"))
        (ECast (EMethod (self_field "accumulator") "take_bits" [] [EPath ["BITS_PER_BYTE"]]) (TyName ["u8"]));
      EOpAssign PPlus (self_field "entropy_out") (EInt 1 "")] None).
Lemma byte_loop d p i : p_entropy_len p <= 32 ->
  forall k n s s', (k <= n)%nat -> d_params s = p -> drain_bytes k s = Ok s' ->
  loop n (while_round (fun e r => eval B prog F (enter B prog F (S d)) false "DecodeState" e r) byte_test byte_body)
    (vars p i s) = Val VUnit (vars p i s').
Proof.
  intros Hp k. induction k as [|k IH]; intros n s s' Hn Hs H; [discriminate|]. destruct n as [|n]; [lia|].
  cbn [drain_bytes] in H. rewrite Hs in H. unfold BITS_PER_BYTE in H.
  destruct (d_out s <? p_entropy_len p) eqn:E1; cbn [andb] in H.
  2: { injection H as <-. eapply loop_end. unfold while_round. ev prog known. }
  destruct (can_take (d_acc s) 8) eqn:E2.
  2: { injection H as <-. eapply loop_end. unfold while_round. ev prog known. }
  destruct (take_bits (d_acc s) 8) as [[v a1]|?|] eqn:E3; cbn [bind] in H; [|discriminate..].
  unfold set_at in H. destruct (N.to_nat (d_out s) <? length (d_entropy s))%nat eqn:E4; cbn [bind] in H; [|discriminate].
  eapply loop_more; [|eapply (IH n _ s' ltac:(lia) _ H)]. cbn [d_params d_entropy d_out d_acc d_cs d_cs_filled].
  Unshelve. 2: reflexivity.
  clear IH H.
  assert (H1 : v mod 2 ^ width B U8 = v).
  { apply N.mod_small. change (2 ^ width B U8) with (2 ^ 8). eapply take_lt; exact E3. }
  assert (H2 : (d_out s <? N.of_nat (length (d_entropy s))) = true)
    by (apply Nat.ltb_lt in E4; apply N.ltb_lt; lia).
  assert (H3 : fit B Usize (d_out s + 1) = Got (VInt Usize (d_out s + 1)))
    by (apply N.ltb_lt in E1; apply fit_ok, small_usize; [exact HB|]; apply N.le_lt_trans with 33; [lia|reflexivity]).
  destruct (nth_error (d_entropy s) (N.to_nat (d_out s))) as [b|] eqn:E5.
  2: { apply nth_error_None in E5. apply Nat.ltb_lt in E4. lia. }
  unfold while_round. rewrite Hs. ev prog known.
Qed.
Local Notation bit_test :=
  (EBin PAndAnd
     (EBin PAndAnd (EBin PEqEq (self_field "entropy_out") (EPath ["entropy_byte_length"]))
        (EBin PLt (self_field "actual_checksum_filled") (EPath ["checksum_bit_length"])))
     (EMethod (self_field "accumulator") "can_take" [] [EInt 1 ""])).
Local Notation bit_body :=
  (EBlock
     [ELet (QBind "bit") None
        (ECast (EMethod (self_field "accumulator") "take_bits" [] [EInt 1 ""]) (TyName ["u8"]));
      EAssign (self_field "actual_checksum")
        (EBin POr (EBin PShl (self_field "actual_checksum") (EInt 1 "")) (EPath ["bit"]));
      EOpAssign PPlus (self_field "actual_checksum_filled") (EInt 1 "")] None).
Lemma bit_loop d p i : p_cs_len p <= 8 ->
  forall k n s s', (k <= n)%nat -> d_params s = p -> drain_checksum k s = Ok s' ->
  loop n (while_round (fun e r => eval B prog F (enter B prog F (S d)) false "DecodeState" e r) bit_test bit_body)
    (vars p i s) = Val VUnit (vars p i s').
Proof.
  intros Hp k. induction k as [|k IH]; intros n s s' Hn Hs H; [discriminate|]. destruct n as [|n]; [lia|].
  cbn [drain_checksum] in H. rewrite Hs in H.
  destruct (d_out s =? p_entropy_len p) eqn:E1; cbn [andb] in H.
  2: { injection H as <-. eapply loop_end. unfold while_round. ev prog known. }
  destruct (d_cs_filled s <? p_cs_len p) eqn:E0; cbn [andb] in H.
  2: { injection H as <-. eapply loop_end. unfold while_round. ev prog known. }
  destruct (can_take (d_acc s) 1) eqn:E2.
  2: { injection H as <-. eapply loop_end. unfold while_round. ev prog known. }
  destruct (take_bits (d_acc s) 1) as [[v a1]|?|] eqn:E3; cbn [bind] in H; [|discriminate..].
  eapply loop_more; [|eapply (IH n _ s' ltac:(lia) _ H)]. cbn [d_params d_entropy d_out d_acc d_cs d_cs_filled].
  Unshelve. 2: reflexivity.
  clear IH H.
  assert (H1 : 2 ^ width B U8 = 256) by reflexivity.
  assert (H2 : shift_by B U8 1 = Some 1) by reflexivity.
  assert (H3 : fit B Usize (d_cs_filled s + 1) = Got (VInt Usize (d_cs_filled s + 1)))
    by (apply N.ltb_lt in E0; apply fit_ok, small_usize; [exact HB|]; apply N.le_lt_trans with 9; [lia|reflexivity]).
  unfold while_round. rewrite Hs. ev prog known.
Qed.

Lemma take_bits_bits {E} a n v a' : take_bits (E := E) a n = Ok (v, a') -> ba_bits a' = ba_bits a - n.
Proof.
  clear HF HB. unfold take_bits. destruct (_ <? _); [discriminate|]. destruct (_ || _); [discriminate|].
  remember (N.shiftl 1 n - 1) as mask eqn:Em. intros [= _ <-]. reflexivity.
Qed.
Lemma bytes_params k : forall s s', drain_bytes k s = Ok s' ->
  d_params s' = d_params s /\ ba_bits (d_acc s') <= ba_bits (d_acc s).
Proof.
  induction k as [|k IH]; intros s s'; cbn [drain_bytes]; [discriminate|].
  destruct (_ && _); [|intros [= <-]; split; [reflexivity|lia]].
  destruct (take_bits _ _) as [[v a]|?|] eqn:E; cbn [bind]; [|discriminate..].
  destruct (set_at _ _ _) as [l|?|]; cbn [bind]; [|discriminate..]. intros H. apply IH in H.
  cbn [d_params d_acc] in H. apply take_bits_bits in E. destruct H as [H1 H2]. split; [exact H1|lia].
Qed.
Lemma bits_params k : forall s s', drain_checksum k s = Ok s' ->
  d_params s' = d_params s /\ ba_bits (d_acc s') <= ba_bits (d_acc s).
Proof.
  induction k as [|k IH]; intros s s'; cbn [drain_checksum]; [discriminate|].
  destruct (_ && _); [|intros [= <-]; split; [reflexivity|lia]].
  destruct (take_bits _ _) as [[v a]|?|] eqn:E; cbn [bind]; [|discriminate..]. intros H. apply IH in H.
  cbn [d_params d_acc] in H. apply take_bits_bits in E. destruct H as [H1 H2]. split; [exact H1|lia].
Qed.
Lemma push_params s i s' : dec_push_index s i = Ok s' ->
  d_params s' = d_params s /\ ba_bits (d_acc s') <= ba_bits (d_acc s) + 11.
Proof.
  unfold dec_push_index, BITS_PER_WORD. destruct (push_bits _ _ _) as [a|?|] eqn:E; cbn [bind]; [|discriminate..].
  destruct (drain_bytes _ _) as [s2|?|] eqn:E2; cbn [bind]; [|discriminate..]. intros E3.
  apply bytes_params in E2. apply bits_params in E3. apply push_bits_bits in E. cbn [d_params d_acc] in E2.
  destruct E2 as [E21 E22], E3 as [E31 E32]. split; [congruence|lia].
Qed.

Lemma push_index_run d s i s' :
  p_entropy_len (d_params s) <= 32 -> p_cs_len (d_params s) <= 8 -> ba_bits (d_acc s) <= 285 ->
  dec_push_index s i = Ok s' ->
  run B prog F (S (S d)) "DecodeState" "push_index" [state_value s; VInt U64 i]
  = inl (VUnit, [state_value s'; VInt U64 i]).
Proof.
  intros Hp1 Hp2 Hb H. unfold dec_push_index, BITS_PER_WORD in H.
  destruct (push_bits (d_acc s) i 11) as [a|?|] eqn:E1; cbn [bind] in H; [|discriminate..].
  match type of H with context [drain_bytes ?k ?s1] => destruct (drain_bytes k s1) as [s2|?|] eqn:E2; cbn [bind] in H; [|discriminate..] end.
  pose proof (push_bits_bits _ _ _ _ E1) as Hb1.
  pose proof (bytes_params _ _ _ E2) as [Hs2 _]. cbn [d_params] in Hs2.
  assert (Hf : (S (N.to_nat (ba_bits a)) <= F)%nat) by lia.
  match type of E2 with drain_bytes ?k ?s1 = _ => pose proof (byte_loop d (d_params s) i Hp1 k F s1 s2 Hf eq_refl E2) as L1 end.
  cbn [d_params d_entropy d_out d_acc d_cs d_cs_filled] in L1.
  pose proof (bit_loop d (d_params s) i Hp2 _ F _ _ Hf Hs2 H) as L2.
  rewrite Hs2 in L2. 
  pose proof (bits_params _ _ _ H) as [Hs3 _]. rewrite Hs3, Hs2 in L2. rewrite Hs2 in L1.
  replace (d_params s') with (d_params s) by congruence.
  clear E2 H Hs2 Hs3 Hp1 Hp2 Hb Hb1 Hf.
  runs prog ltac:(idtac; first [exact L1 | exact L2 | known]).
Qed.

Lemma finish_run d s r : dec_finish s = r -> r <> Panic -> p_cs_len (d_params s) <= 8 -> 1 <= p_cs_len (d_params s) ->
  run B prog F (S (S (S d))) "DecodeState" "finish" [state_value s] = inl (result VBytes r, [state_value s]).
Proof.
  unfold dec_finish. intros Hr Hn Hc Hc1.
  destruct (d_out s =? p_entropy_len (d_params s)) eqn:E1; cbn [negb] in Hr; [|congruence].
  destruct (d_cs_filled s =? p_cs_len (d_params s)) eqn:E2; cbn [negb] in Hr; [|congruence].
  destruct (ba_bits (d_acc s) =? 0) eqn:E3; cbn [negb] in Hr; [|congruence].
  cbv zeta in Hr. unfold BITS_PER_BYTE in Hr.
  pose proof (sha_some (d_entropy s)) as H3. pose proof (sha_first (d_entropy s)) as H4.
  assert (H7 : (p_cs_len (d_params s) <=? 8) = true) by (apply N.leb_le; exact Hc).
  assert (H8 : shift_by B U8 (8 - p_cs_len (d_params s)) = Some (8 - p_cs_len (d_params s)))
    by (apply shift_ok; change (width B U8) with 8; lia).
  destruct (d_cs s =? N.shiftr (b2n (hd x00 (sha256 (d_entropy s)))) (8 - p_cs_len (d_params s))) eqn:E5;
    subst r; clear Hn; unfold result; destruct (b_debug B) eqn:E; runs prog known.
Qed.
End Runs.
