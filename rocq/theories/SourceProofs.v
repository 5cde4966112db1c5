(** Proofs that the functions of the texts in [RustSource], run by [RustEval], do what the model says. *)
From Coq Require Import Lia.
From Verif Require Import Base Str Sha2 Language39 BitAcc Mnemonic39 MnemonicProofs RustSyntax RustEval RustSource RustExec.
From Coq Require Import List.
Import ListNotations.
Local Open Scope string_scope.
Local Open Scope N_scope.
Local Open Scope list_scope.

(** the items of the four texts *)
Definition items (o : option (list item)) : list item := match o with Some l => l | None => [] end.
Definition bit_accumulator_items : list item := Eval vm_compute in items (parse bit_accumulator_rs).
Definition count_items : list item := Eval vm_compute in items (parse count_rs).
Definition entropy_items : list item := Eval vm_compute in items (parse entropy_rs).
Definition phrase_items : list item := Eval vm_compute in items (parse phrase_rs).
Definition prog : list item :=
  Eval vm_compute in bit_accumulator_items ++ count_items ++ entropy_items ++ phrase_items.

(** ** Values of the model as values of the program *)
Notation acc_value a :=
  (VRec "BitAccumulator" [("acc", VInt U64 (ba_acc a)); ("bits", VInt Usize (ba_bits a))]).
Definition count_name (c : Count) : string :=
  match c with
  | Words12 => "Words12" | Words15 => "Words15" | Words18 => "Words18" | Words21 => "Words21" | Words24 => "Words24"
  end.
Notation count_value c := (VCon "Count" (count_name c) []).
Definition err_value (e : err39) : value :=
  match e with
  | BadWordCount n => VCon "Error" "BadWordCount" [VInt Usize n]
  | BadEntropyBitCount n => VCon "Error" "BadEntropyBitCount" [VInt Usize n]
  | UnknownWord w => VCon "Error" "UnknownWord" [VStr w]
  | InvalidChecksum => VCon "Error" "InvalidChecksum" []
  end.

Section Runs.
Variable B : build.
Variable F : nat.
Hypothesis HB : valid_build B.
Lemma HB32 : 32 <= b_usize_bits B.
Proof. destruct HB as [E|E]; rewrite E; discriminate. Qed.
Lemma small_usize n : n < 2 ^ 32 -> n < 2 ^ width B Usize.
Proof.
  intros H. cbn [width]. pose proof HB32. assert (2 ^ 32 <= 2 ^ b_usize_bits B) by (apply N.pow_le_mono_r; lia). lia.
Qed.

(** ** bit_accumulator.rs *)
Lemma new_run d : run B prog F (S d) "BitAccumulator" "new" [] = inl (acc_value ba_new, []).
Proof. runs prog fail. Qed.
Lemma bits_run d a :
  run B prog F (S d) "BitAccumulator" "bits" [acc_value a] = inl (VInt Usize (ba_bits a), [acc_value a]).
Proof. runs prog fail. Qed.
Lemma can_take_run d a n :
  run B prog F (S d) "BitAccumulator" "can_take" [acc_value a; VInt Usize n]
  = inl (VBool (can_take a n), [acc_value a; VInt Usize n]).
Proof. runs prog fail. Qed.
Lemma push_bits_run d a v n a' : push_bits (E := err39) a v n = Ok a' ->
  run B prog F (S d) "BitAccumulator" "push_bits" [acc_value a; VInt U64 v; VInt Usize n]
  = inl (VUnit, [acc_value a'; VInt U64 v; VInt Usize n]).
Proof.
  unfold push_bits. destruct (56 <? n) eqn:E1; [discriminate|]. destruct (2 ^ 32 <=? ba_bits a + n) eqn:E2; [discriminate|].
  remember (2 ^ 64) as M eqn:EM. remember (N.shiftl 1 n) as sh eqn:Esh.
  intros [= <-].
  apply N.ltb_ge in E1. apply N.leb_gt in E2.
  assert (H1 : (n <=? 56) = true) by (apply N.leb_le; lia).
  assert (H2 : shift_by B U64 n = Some n) by (apply shift_ok; cbn; lia).
  assert (Hp : 2 ^ n < M) by (rewrite EM; apply N.pow_lt_mono_r; lia).
  assert (Hp' : 2 ^ n <> 0) by (apply N.pow_nonzero; lia).
  assert (HM : 2 ^ width B U64 = M) by (rewrite EM; reflexivity).
  symmetry in Esh.
  assert (H3 : sh mod M = sh). { rewrite <- Esh, N.shiftl_1_l. apply N.mod_small. exact Hp. }
  assert (H4 : (1 <=? sh) = true). { rewrite <- Esh, N.shiftl_1_l. apply N.leb_le. lia. }
  assert (H5 : fit B Usize (ba_bits a + n) = Got (VInt Usize (ba_bits a + n))) by (apply fit_ok, small_usize; lia).
  clear EM. cbn [ba_acc ba_bits]. destruct (b_debug B) eqn:E; runs prog fail.
Qed.
Lemma take_bits_run d a n v a' : take_bits (E := err39) a n = Ok (v, a') ->
  run B prog F (S d) "BitAccumulator" "take_bits" [acc_value a; VInt Usize n]
  = inl (VInt U64 v, [acc_value a'; VInt Usize n]).
Proof.
  unfold take_bits. destruct (ba_bits a <? n) eqn:E1; [discriminate|]. remember (ba_bits a - n) as s eqn:Es.
  destruct ((64 <=? s) || (64 <=? n)) eqn:E2; [discriminate|].
  apply Bool.orb_false_iff in E2 as [E2 E3].
  remember (2 ^ 64) as M eqn:EM. remember (N.shiftl 1 n) as shn eqn:En. remember (N.shiftl 1 s) as shs eqn:Ess.
  intros [= <- <-].
  apply N.ltb_ge in E1. apply N.leb_gt in E2, E3.
  assert (H1 : (n <=? ba_bits a) = true) by (apply N.leb_le; lia).
  assert (H2 : shift_by B U64 n = Some n) by (apply shift_ok; cbn; lia).
  assert (H3 : shift_by B U64 s = Some s) by (apply shift_ok; cbn; lia).
  assert (HM : 2 ^ width B U64 = M) by (rewrite EM; reflexivity).
  symmetry in Es, En, Ess.
  assert (Hk : forall k, k < 64 -> N.shiftl 1 k mod M = N.shiftl 1 k /\ (1 <=? N.shiftl 1 k) = true).
  { intros k Hk. rewrite EM, N.shiftl_1_l. assert (2 ^ k < 2 ^ 64) by (apply N.pow_lt_mono_r; lia).
    assert (2 ^ k <> 0) by (apply N.pow_nonzero; lia). split; [apply N.mod_small; assumption|apply N.leb_le; lia]. }
  destruct (Hk n E3) as [H4 H5]. destruct (Hk s E2) as [H6 H7]. rewrite En in H4, H5. rewrite Ess in H6, H7.
  clear EM Hk. cbn [ba_acc ba_bits]. destruct (b_debug B) eqn:E; runs prog fail.
Qed.

(** ** Count *)
Lemma key_size_table n : from_key_size n =
  if 128 =? n then Ok Words12 else if 160 =? n then Ok Words15 else if 192 =? n then Ok Words18
  else if 224 =? n then Ok Words21 else if 256 =? n then Ok Words24 else Err (BadEntropyBitCount n).
Proof.
  unfold from_key_size. destruct n as [|p]; [reflexivity|].
  do 9 (destruct p as [p|p|]; try reflexivity).
Qed.
Lemma word_count_table n : from_word_count n =
  if 12 =? n then Ok Words12 else if 15 =? n then Ok Words15 else if 18 =? n then Ok Words18
  else if 21 =? n then Ok Words21 else if 24 =? n then Ok Words24 else Err (BadWordCount n).
Proof.
  unfold from_word_count. destruct n as [|p]; [reflexivity|].
  do 6 (destruct p as [p|p|]; try reflexivity).
Qed.
Definition result {A : Type} (f : A -> value) (r : res err39 A) : value :=
  match r with Ok a => ok (f a) | Err e => err (err_value e) | Panic => VUnit end.
Ltac by_cases :=
  repeat match goal with
  | |- context [if ?c =? ?n then _ else _] => let H := fresh "H" in destruct (c =? n) eqn:H; cbv iota
  end.
Lemma from_key_size_run d n :
  run B prog F (S d) "Count" "from_key_size" [VInt Usize n]
  = inl (result (fun c => count_value c) (from_key_size n), [VInt Usize n]).
Proof. rewrite key_size_table. by_cases; unfold result; cbn [count_name err_value]; runs prog fail. Qed.
Lemma from_word_count_run d n :
  run B prog F (S d) "Count" "from_word_count" [VInt Usize n]
  = inl (result (fun c => count_value c) (from_word_count n), [VInt Usize n]).
Proof. rewrite word_count_table. by_cases; unfold result; cbn [count_name err_value]; runs prog fail. Qed.
Lemma from_phrase_run d s :
  run B prog F (S (S d)) "Count" "from_phrase" [VStr s]
  = inl (result (fun c => count_value c) (count_from_phrase s), [VStr s]).
Proof.
  assert (L : N.of_nat (length (map VStr (split_whitespace s))) = N.of_nat (length (split_whitespace s))) by (rewrite map_length; reflexivity).
  unfold count_from_phrase. runs prog ltac:(apply from_word_count_run).
Qed.
Ltac each_count c := destruct c; cbn [count_name]; runs prog fail.
Lemma word_count_run d c : run B prog F (S d) "Count" "word_count" [count_value c] = inl (VInt Usize (word_count c), [count_value c]).
Proof. each_count c. Qed.
Lemma entropy_bit_length_run d c :
  run B prog F (S d) "Count" "entropy_bit_length" [count_value c] = inl (VInt Usize (entropy_bit_length c), [count_value c]).
Proof. each_count c. Qed.
Lemma checksum_bit_length_run d c :
  run B prog F (S d) "Count" "checksum_bit_length" [count_value c] = inl (VInt Usize (checksum_bit_length c), [count_value c]).
Proof. each_count c. Qed.
Lemma total_bit_length_run d c :
  run B prog F (S (S d)) "Count" "total_bit_length" [count_value c] = inl (VInt Usize (total_bit_length c), [count_value c]).
Proof.
  assert (H : fit B Usize (total_bit_length c) = Got (VInt Usize (total_bit_length c)))
    by (apply fit_ok, small_usize; destruct c; reflexivity).
  unfold total_bit_length in *.
  runs prog ltac:(first [apply entropy_bit_length_run | apply checksum_bit_length_run]).
Qed.
End Runs.
